(** Drivers (not code of /repo): a table is sent, its bytes are read by readers on readers (M_tower) and received into a new table, which is sent
    again by the next relay. *)
From Verif Require Import Prelude M_ts M_reader M_psi M_recv M_tower.

(** what a relay is like: profile of the sender's build, its PID and counter; how the bytes arrive (sizes of the pieces), the height of the stack of readers, its fresh
    memory, the caller's buffer; profile of the receiver's build and the Psi it uses *)
Record hop := mkHop { h_out : mode; h_pid : N; h_cc : N; h_pieces : list nat; h_height : nat; h_garbage : nat -> list N; h_buffer : list N; h_in : mode; h_psi : psi }.

(** Driver (not code of /repo): one relay *)
Definition pass_on {T} (demux : mode -> T -> N -> N -> list N -> res (N * list N)) (parse : mode -> T -> psi -> res T) (new : T) (h : hop) (t : T) : res T :=
  ' (_, out) <- demux (h_out h) t (h_pid h) (h_cc h) [] ;;
  let fuel := S (length out) in
  ' (pks, _) <- read_all_on (ts_read_on (tower fuel (h_height h)) fuel) fuel
                  (tower_new (h_height h) (mkSource out (map Chunk (h_pieces h))) (h_garbage h)) (h_buffer h) ;;
  ' (_, t) <- receive (h_in h) (parse (h_in h)) (h_psi h) new pks ;;
  Ok t.
(** Driver (not code of /repo): relay after relay *)
Fixpoint pass_along {T} (demux : mode -> T -> N -> N -> list N -> res (N * list N)) (parse : mode -> T -> psi -> res T) (new : T) (hs : list hop) (t : T) : res T :=
  match hs with [] => Ok t | h :: hs => t <- pass_on demux parse new h t ;; pass_along demux parse new hs t end.

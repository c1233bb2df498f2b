(** Specification: an elementary stream on the air (S_count), and what can be seen of it. *)
From Verif Require Import Prelude Layout S_ts S_play S_count.

(** the counter it starts with, the end of a PES packet, PES packets in pieces with marks for those that arrive *)
Record elementary := mkEs { es_count : N; es_lead : marked; es_units : list (marked * (pes * bool)) }.
Definition es_pieces (e : elementary) : list (N * piece * bool) := on_air (es_lead e) (map fst (es_units e)).
Definition es_ok (e : elementary) : Prop :=
  es_count e < 16 /\ Forall (fun y => piece_ok (fst y)) (es_lead e) /\
  Forall (fun x => fst x <> [] /\ Forall (fun y => piece_ok (fst y)) (fst x) /\ data (fst x) = pes_bytes (fst (snd x)) (snd (snd x))) (es_units e) /\
  Forall (fun x => pes_ok (fst (snd x)) /\ length_ok (fst (snd x)) (snd (snd x))) (es_units e) /\
  in_step (es_count e) (es_pieces e) /\ gaps_show None (es_pieces e).
Definition on_pid (pid : N) (e : elementary) (l : list (list N)) : Prop := es_ok e /\ among pid (arrived pid (es_pieces e)) l.
Definition seen (e : elementary) : list (option (option N * option N * list N)) := map (fun x => Some (holds (fst x))) (given (es_units e)).

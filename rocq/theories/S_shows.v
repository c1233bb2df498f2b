(** Specification: what viewers see of a broadcast of which packets are lost or arrive with bit errors. *)
From Verif Require Import Prelude Layout S_ts M_tables S_tables S_desc S_system M_multi S_multi S_lossy S_hits M_words S_words M_shows.

(** texts that can be written and fit (S_words); the other tables carry no texts for the viewer *)
Definition show_ok (s : show) : Prop :=
  match s with
  | Services version tsid onid l => version < 2 ^ 5 /\ tsid < 2 ^ 16 /\ onid < 2 ^ 16 /\ Forall service_ok l
  | Guide table version pnr tsid onid l =>
    version < 2 ^ 5 /\ pnr < 2 ^ 16 /\ tsid < 2 ^ 16 /\ onid < 2 ^ 16 /\ Forall event_ok l /\
    ((table = 0x4E \/ table = 0x4F) /\ (0 < length l <= 256)%nat \/ 0x50 <= table <= 0x6F /\ (0 < length l < N.to_nat 504)%nat)
  | Network version network cp name items =>
    version < 2 ^ 5 /\ network < 2 ^ 16 /\ label_ok cp name /\ (wire_weight cp name <= 255)%nat /\ Forall nit_item_ok items /\
    exact_items niti_descs items /\ Forall (fun i => (16 + length (nit_entry i) <= N.to_nat 4098)%nat) items
  | Other t => sendable t /\ match t with TNit _ | TSdt _ | TEit _ => False | _ => True end
  end.
Definition shows_ok (jobs : list (N * show)) : Prop := Forall (fun j => fst j < 8192 /\ show_ok (snd j)) jobs.
Definition shows_on (pid : N) (jobs : list (N * show)) : list show := map snd (filter (fun j => fst j =? pid) jobs).

(** what there is to see *)
Definition services_of (s : show) := match s with Services _ _ _ l => map service_seen l | _ => [] end.
Definition events_of (s : show) := match s with Guide _ _ _ _ _ l => map event_seen l | _ => [] end.
Definition name_of (s : show) : option (list N) := match s with Network _ _ _ name _ => Some name | _ => None end.
(** the shows are sent one after the other on a PID, from the counter [cc] *)
Fixpoint on_air (m : mode) (pid cc : N) (xs : list (show * list hit)) : Prop :=
  match xs with
  | [] => True
  | (s, l) :: r => exists t cc', show_table m s = Ok t /\ send m t pid cc [] = Ok (cc', concat (map fst l)) /\ on_air m pid cc' r
  end.
(** of what there is to see, that in the sections that arrive whole *)
Definition part {A} (items : list A) (l : list (list N * bool)) (seen : list A) : Prop :=
  exists gs, items = concat gs /\ length gs = length (runs l) /\ seen = concat (keep (arrive l) gs).
(** the name is in the first section *)
Definition name_part (s : show) (l : list (list N * bool)) : option (list N) := if hd false (arrive l) then name_of s else None.

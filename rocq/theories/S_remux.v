(** Specification: packets on another PID and with other counters. *)
From Verif Require Import Prelude Layout S_ts S_psi.

(** the same packet but for the PID; but for the counter *)
Definition retag (pid : N) (pk : list N) : list N :=
  ts_header (field pk 0 8) (field pk 8 1) (field pk 9 1) (field pk 10 1) pid (field pk 24 2) (field pk 26 1) (field pk 27 1) (field pk 28 4) ++ skipn 4 pk.
Definition recount (cc : N) (pk : list N) : list N :=
  ts_header (field pk 0 8) (field pk 8 1) (field pk 9 1) (field pk 10 1) (field pk 11 13) (field pk 24 2) (field pk 26 1) (field pk 27 1) cc ++ skipn 4 pk.

(** a packet; its adaptation field may claim to be longer than the packet, but not by so much that 5 + the length leaves a byte *)
Definition sound (pk : list N) : Prop := length pk = 188%nat /\ bytes pk /\ (flag pk 26 = true -> field pk 32 8 <= 250).

Definition routed (route : N -> option N) (l : list (list N)) : list (list N) :=
  flat_map (fun pk => match route (field pk 11 13) with Some q => [retag q pk] | None => [] end) l.

(** no packet is missing behind one with counter [cc] *)
Fixpoint unbroken (cc : N) (l : list (list N)) : Prop :=
  match l with
  | [] => True
  | pk :: l' => if flag pk 27 then field pk 28 4 = (cc + 1) mod 16 /\ unbroken (field pk 28 4) l' else unbroken cc l'
  end.

(** a section starts at the beginning of the payload *)
Definition opens (pk : list N) : Prop :=
  flag pk 27 = true /\ flag pk 9 = true /\ payload_at pk < 188 /\ nth_error pk (N.to_nat (payload_at pk)) = Some 0.

(** Specification: tables whose every part fits its length and comes back when read. The fields may hold any value of
    their types; of a value too wide for its place [fit_X] (S_wide) is what is sent. *)
From Verif Require Import Prelude M_text M_desc S_utils S_desc M_tables S_tables S_sender S_wide.

Definition pat_sound (t : pat) : Prop := pat_typed t /\ (length (pat_items t) <= 253)%nat.
Definition loop_sound (ds : list desc) : Prop := loop_sized ds /\ loop_exact (fit_loop ds).
Definition pmt_sound (t : pmt) : Prop :=
  pmt_typed t /\ pmt_fits (N.to_nat 4098) t /\ loop_sound (pmt_descs t) /\ Forall (fun i => loop_sound (pmti_descs i)) (pmt_items t).
Definition nit_sound (t : nit) : Prop :=
  nit_typed t /\ nit_fits (N.to_nat 4098) t /\ loop_sound (nit_descs t) /\ Forall (fun i => loop_sound (niti_descs i)) (nit_items t) /\
  (nit_table t = 0x40 \/ nit_table t = 0x41).
Definition sdt_sound (t : sdt) : Prop :=
  sdt_typed t /\ sdt_fits (N.to_nat 4098) t /\ Forall (fun i => loop_sound (sdti_descs i)) (sdt_items t) /\ (sdt_table t = 0x42 \/ sdt_table t = 0x46).
Definition eit_sound (t : eit) : Prop :=
  eit_typed t /\ eit_fits (N.to_nat 4098) t /\ Forall (fun i => eiti_start i < MJD_END /\ loop_sound (eiti_descs i)) (eit_items t).
(** present/following, and a schedule whose tables are all seen *)
Definition pf_sound (t : eit) : Prop := eit_sound t /\ (eit_table t = 0x4E \/ eit_table t = 0x4F) /\ (0 < length (eit_items t) <= 256)%nat.
Definition schedule_sound (t : eit) : Prop := eit_sound t /\ 0x50 <= eit_table t <= 0x6F /\ (0 < length (eit_items t) < N.to_nat 504)%nat.
Definition tot_sound (t : tot) : Prop :=
  tot_typed t /\ tot_time t < MJD_END /\ loop_sound (tot_descs t) /\ (length (wire (tot_descs t)) <= N.to_nat 4084)%nat.

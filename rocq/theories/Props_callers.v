(** Property theorems C86, continued: callers of several functions. Specification: S_profile. *)
From Verif Require Import Prelude Layout S_ts M_ts M_text M_tables M_multi M_words M_shows M_play M_count M_watch M_due M_carry S_profile.
From Verif Require P_callers.

(** players of elementary streams, from whatever packets *)
Theorem C86_players :
  (forall pid l cur, alike (fun m => collect m pid l cur)) /\
  (forall pid l, alike (fun m => play m pid l)) /\
  (forall pid l last cur, alike (fun m => gather m pid l last cur)) /\
  (forall pid l, alike (fun m => careful m pid l)) /\
  (forall t l, alike (fun m => elapsed m t l)) /\
  (forall want l, alike (fun m => watch m want l)) /\
  (forall pcr_pid pid c l, alike (fun m => due m pcr_pid pid c l)) /\
  (forall ts, alike (fun m => clock_of m ts)).
Proof.
  split; [exact P_callers.ag_collect|]. split; [exact P_callers.ag_play|]. split; [exact P_callers.ag_gather|].
  split; [exact P_callers.ag_careful|]. split; [exact P_callers.ag_elapsed|]. split; [exact P_callers.ag_watch|]. split; [exact P_callers.ag_due|exact P_callers.ag_clock_of].
Qed.
Print Assumptions C86_players.
(** makers of tables from texts and senders of many tables on many PIDs *)
Theorem C86_senders :
  (forall version tsid onid l, alike (fun m => sdt_made m version tsid onid l)) /\
  (forall table version pnr tsid onid l, alike (fun m => eit_made m table version pnr tsid onid l)) /\
  (forall version network cp name items, alike (fun m => nit_made m version network cp name items)) /\
  (forall jobs counters dst, alike (fun m => multiplex m jobs counters dst)) /\
  (forall jobs counters dst, alike (fun m => broadcast m jobs counters dst)) /\
  (forall pid c l, alike (fun m => carry_all m pid c l)).
Proof.
  split; [exact P_callers.ag_sdt_made|]. split; [exact P_callers.ag_eit_made|]. split; [exact P_callers.ag_nit_made|].
  split; [exact P_callers.ag_multiplex|]. split; [exact P_callers.ag_broadcast|].
  intros pid c l. exact (P_callers.ag_carry_all pid l c).
Qed.
Print Assumptions C86_senders.
(** but not the other way round: with adaptation field length 251 a debug build of a player aborts, and a release build
    takes the whole packet for payload of the stream *)
Theorem C86_player_refuted : exists ts out, length ts = 188%nat /\ bytes ts /\
  collect Debug 0x100 [ts] None = Panic /\ collect Release 0x100 [ts] None = Ok [out] /\ out = ts.
Proof.
  exists ([0x47; 0x41; 0x00; 0x30; 251] ++ repeat 255 183), ([0x47; 0x41; 0x00; 0x30; 251] ++ repeat 255 183).
  split; [vm_compute; reflexivity|]. split; [vm_compute; repeat constructor|]. split; [vm_compute; reflexivity|]. split; vm_compute; reflexivity.
Qed.
Print Assumptions C86_player_refuted.
Example C86_players_ex : forall m, play m 0x100 [[0x47; 0x41; 0x00; 0x30; 176; 0] ++ repeat 255 175 ++ [0; 0; 1; 0xBF; 0; 1; 7]] = Ok [Some (None, None, [7])].
Proof. intros []; vm_compute; reflexivity. Qed.

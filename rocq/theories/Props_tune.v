(** Property theorems C78: receivers that keep the latest table (From<&Psi>), and that follow a program. Specification: S_tune. *)
From Verif Require Import Prelude Layout S_ts S_crc S_utils S_psi M_text M_ts M_psi M_drive M_recv M_desc S_desc M_tables S_tables Props_tables
  M_reader S_reader M_system S_system Props_system S_loss Props_loss S_join M_from M_tune S_tune.
From Verif Require P_psi P_tab2 P_packed P_loss P_join P_tune Facts.

(** * C78 *)
(** any sections in any packetisation: the table is that of the last section that is heard (with a
    right CRC; one too short for the table makes it empty) *)
Definition keeps_latest {T} (from : mode -> psi -> res T) (ids : N -> bool) (min : nat) (rd : list N -> T -> Prop) (dflt : T) : Prop :=
  forall m p old ls ss ts, Forall2 carries ls ss -> Forall framed ss -> Forall2 (made min rd dflt) (heard ids 8 ss) ts ->
  exists q, receive m (latest ids (from m)) p old (map encode (concat ls)) = Ok (q, last ts old).
(** the same, who joins in the middle of a section and loses packets on the way *)
Definition keeps_latest_lossy {T} (from : mode -> psi -> res T) (ids : N -> bool) (min : nat) (rd : list N -> T -> Prop) (dflt : T) : Prop :=
  forall m p l xs cc old ts, p_buffer p = [] -> p_size p = 0%nat -> p_cc p < 16 -> rest_of_section l -> Forall (fun k => k_cc k <> (p_cc p + 1) mod 16) l ->
    transmitted xs -> counted cc (sent_packets (on_the_way xs)) -> gaps_show Nothing (on_the_way xs) -> Forall2 (made min rd dflt) (heard ids 8 (intact xs)) ts ->
    exists q, receive m (latest ids (from m)) p old (map encode (l ++ arrived (on_the_way xs))) = Ok (q, last ts old).
Ltac keeps X := split; intros m; [refine (P_tune.latest_run _ _ _ _ _ _ _ (X m) _ m)|refine (P_tune.latest_loss _ _ _ _ _ _ _ (X m) _ m)]; try lia; intros []; reflexivity.
Theorem C78_pat : keeps_latest pat_from id_pat 12 pat_reads pat_default /\ keeps_latest_lossy pat_from id_pat 12 pat_reads pat_default.
Proof. keeps P_packed.pat_readable. Qed.
Print Assumptions C78_pat.
Theorem C78_pmt : keeps_latest pmt_from id_pmt 16 P_tab2.pmt_seen pmt_default /\ keeps_latest_lossy pmt_from id_pmt 16 P_tab2.pmt_seen pmt_default.
Proof. keeps P_packed.pmt_readable. Qed.
Print Assumptions C78_pmt.
Theorem C78_nit : keeps_latest nit_from id_nit 16 nit_reads nit_default /\ keeps_latest_lossy nit_from id_nit 16 nit_reads nit_default.
Proof. keeps P_packed.nit_readable. Qed.
Print Assumptions C78_nit.
Theorem C78_sdt : keeps_latest sdt_from id_sdt 15 sdt_reads sdt_default /\ keeps_latest_lossy sdt_from id_sdt 15 sdt_reads sdt_default.
Proof. keeps P_packed.sdt_readable. Qed.
Print Assumptions C78_sdt.
Theorem C78_eit : keeps_latest eit_from id_eit 18 eit_reads eit_default /\ keeps_latest_lossy eit_from id_eit 18 eit_reads eit_default.
Proof. keeps P_packed.eit_readable. Qed.
Print Assumptions C78_eit.
Theorem C78_tot : keeps_latest tot_from id_tot 14 tot_reads tot_default /\ keeps_latest_lossy tot_from id_tot 14 tot_reads tot_default.
Proof. keeps P_packed.tot_readable. Qed.
Print Assumptions C78_tot.
(** packets without payload do not matter (to a receiver that adds they do: C61_no_payload_refuted), whatever is made of a section *)
Theorem C78_idle : forall T (from : psi -> res T) m ids p old l, Forall packet_ok l -> latest ids from old p = Ok old ->
  receive m (latest ids from) p old (map encode l) = receive m (latest ids from) p old (map encode (filter k_haspl l)).
Proof. intros T from m ids p old l. exact (P_tune.idle_receive m ids from l p old). Qed.
Print Assumptions C78_idle.

(** ** a receiver that follows the program [want]: PAT, then PMT *)
Definition whole (pk : list N) : Prop := (3 <= length pk)%nat /\ bytes pk.
Definition pats (ss : list (list N)) (ts : list pat) : Prop := Forall2 (made 12 pat_reads pat_default) (heard id_pat 8 ss) ts.
(** the PAT on PID 0 gives the program a PID (for the first time or another one): with the packet that completes
    the section, among packets of any other PIDs, the receiver has that PAT and starts anew with the PMT *)
Theorem C78_moves : forall m want u a k ls ss ts l s t, Forall whole (a ++ [encode k]) ->
  filter (on 0) (a ++ [encode k]) = map encode (concat ls ++ l ++ [k]) -> on 0 (encode k) = true ->
  Forall2 carries ls ss -> Forall framed ss -> carries (l ++ [k]) s -> framed s -> pats ss ts -> pats [s] [t] ->
  Forall (fun t => prog_pid want t = prog_pid want (u_pat u)) ts -> prog_pid want t <> prog_pid want (u_pat u) ->
  match prog_pid want (u_pat u) with
  | Some pid => pid <> 0 /\ exists r, receive m (latest_pmt m want) (u_pmt_psi u) (u_pmt u) (filter (on pid) a) = Ok r
  | None => True
  end ->
  exists q, tune m want u (a ++ [encode k]) = Ok (mkTuner q t psi_default pmt_default).
Proof. exact P_tune.moves. Qed.
Print Assumptions C78_moves.
(** from there on, while the PAT says the same: the last PMT of this program (others may share the PID) that arrives whole,
    though the receiver joins in the middle of a section and packets on the PID of the PMT get lost *)
Theorem C78_service : forall m want u pid b ls ss ts l xs cc us, Forall whole b ->
  prog_pid want (u_pat u) = Some pid -> pid <> 0 -> u_pmt_psi u = psi_default ->
  filter (on 0) b = map encode (concat ls) -> Forall2 carries ls ss -> Forall framed ss -> pats ss ts -> Forall (fun t => prog_pid want t = Some pid) ts ->
  filter (on pid) b = map encode (l ++ arrived (on_the_way xs)) -> rest_of_section l -> Forall (fun k => k_cc k <> 1) l ->
  transmitted xs -> counted cc (sent_packets (on_the_way xs)) -> gaps_show Nothing (on_the_way xs) ->
  Forall2 (made 16 P_tab2.pmt_seen pmt_default) (heard id_pmt 8 (intact xs)) us ->
  exists q1 q2, tune m want u b = Ok (mkTuner q1 (last ts (u_pat u)) q2 (last (filter (fun t => pmt_pnr t =? want) us) (u_pmt u))).
Proof. exact P_tune.tune_service. Qed.
Print Assumptions C78_service.
(** a receiver that hands every PAT to the same [Pat] (Pat::parse adds) finds the PID of the first PAT that has the program, for ever *)
Theorem C78_stale : forall want ts old pid, prog_pid want old = Some pid -> prog_pid want (fold_left pat_add ts old) = Some pid.
Proof. exact P_tune.stale. Qed.
Print Assumptions C78_stale.
Definition moved_program : list N := pat_section (mkPat 8 1 [mkPatI 100 257]) [mkPatI 100 257].
Theorem C78_moved_refuted : exists ls ss old new, Forall2 carries ls ss /\ Forall framed ss /\ Forall2 pat_reads (heard id_pat 12 ss) [old; new] /\
  pat_version new <> pat_version old /\ prog_pid 100 new <> prog_pid 100 old /\
  forall m, (exists q t, receive m (pat_parse m) psi_default pat_default (map encode (concat ls)) = Ok (q, t) /\ prog_pid 100 t = prog_pid 100 old) /\
            (exists q, receive m (latest id_pat (pat_from m)) psi_default pat_default (map encode (concat ls)) = Ok (q, new)).
Proof.
  exists [[with_section one_program]; [with_section moved_program]], [one_program; moved_program], (mkPat 7 1 [mkPatI 100 256]), (mkPat 8 1 [mkPatI 100 257]).
  split. { constructor; [|constructor; [|constructor]]; apply with_section_carries; first [vm_compute; repeat constructor|vm_compute; lia]. }
  split. { constructor; [|constructor; [|constructor]]; (split; vm_compute; [repeat constructor|reflexivity]). }
  split. { change (heard id_pat 12 [one_program; moved_program]) with [one_program; moved_program]. constructor; [vm_compute; reflexivity|constructor; [vm_compute; reflexivity|constructor]]. }
  split; [discriminate|]. split; [discriminate|].
  intros []; (split; [eexists; eexists; split; [vm_compute; reflexivity|reflexivity]|eexists; vm_compute; reflexivity]).
Qed.
Print Assumptions C78_moved_refuted.
(** program 100: PAT, a PMT of program 200 and one of program 100 on PID 256, the PAT moves it to PID 257, its PMT there *)
Definition pmt_of (pnr version : N) : list N := finished [2; 0xB0; 0; pnr / 256; pnr mod 256; 0xC1 + 2 * version; 0; 0; 0xE1; 1; 0xF0; 0; 0x1B; 0xE1; 1; 0xF0; 0].
Definition broadcast_1 : list (list N) :=
  stream 256 5 [pmt_of 100 1] ++ stream 0 5 [one_program] ++ stream 256 6 [pmt_of 200 3] ++ stream 256 7 [pmt_of 100 2].
Definition broadcast_2 : list (list N) := stream 0 6 [moved_program] ++ stream 256 8 [pmt_of 100 2].
Definition broadcast_3 : list (list N) := stream 257 0 [pmt_of 100 4].
Example C78_ex : forall m, exists u1 u2 u3,
  tune m 100 tuner_new broadcast_1 = Ok u1 /\ prog_pid 100 (u_pat u1) = Some 256 /\ u_pmt u1 = mkPmt 2 100 257 [] [mkPmtI 0x1B 257 []] /\
  tune m 100 u1 broadcast_2 = Ok u2 /\ prog_pid 100 (u_pat u2) = Some 257 /\ u_pmt u2 = pmt_default /\
  tune m 100 u2 broadcast_3 = Ok u3 /\ u_pmt u3 = mkPmt 4 100 257 [] [mkPmtI 0x1B 257 []].
Proof.
  intros []; (do 3 eexists; split; [vm_compute; reflexivity|]; split; [vm_compute; reflexivity|]; split; [vm_compute; reflexivity|];
    split; [vm_compute; reflexivity|]; split; [vm_compute; reflexivity|]; split; [vm_compute; reflexivity|]; split; [vm_compute; reflexivity|vm_compute; reflexivity]).
Qed.

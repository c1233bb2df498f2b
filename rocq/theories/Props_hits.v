(** Property theorems C99: bit errors and loss among tables of all kinds. Specification: S_hits, S_lossy, S_noise, S_multi. *)
From Verif Require Import Prelude Layout S_ts S_utils S_psi M_ts M_text M_psi M_drive M_recv M_desc S_desc M_tables S_tables
  M_reader S_reader M_system S_system S_loss S_noise M_multi S_multi S_lossy S_hits Props_tables Props_system Props_multi Props_lossy.
From Verif Require P_hits2.

(** * C99 *)
(** for each table sent, in order, the sections of which all packets arrive and that are unharmed, and nothing of the others *)
Definition follows_hits {T} (parse : mode -> T -> psi -> res T) (add : T -> T -> T) (bit : table -> list (list N * bool) -> option T -> Prop) : Prop :=
  forall m pid cc xs, pid < 8192 -> cc < 16 -> goes_out m pid cc (marks_of come_marks xs) -> Forall (fun x => Forall mild (runs (snd x))) xs -> shows Nothing (come_marks (all_hits xs)) ->
  exists ps, Forall2 (fun x o => bit (fst x) (good (snd x)) o) xs ps /\
    forall m' p old, exists q, receive m' (parse m') p old (come (all_hits xs)) = Ok (q, fold_left add (somes ps) old).
Theorem C99_pat : follows_hits pat_parse pat_add pat_bit.
Proof. exact P_hits2.pat_hits. Qed.
Print Assumptions C99_pat.
Theorem C99_pmt : follows_hits pmt_parse pmt_add pmt_bit.
Proof. exact P_hits2.pmt_hits. Qed.
Print Assumptions C99_pmt.
Theorem C99_nit : follows_hits nit_parse nit_add nit_bit.
Proof. exact P_hits2.nit_hits. Qed.
Print Assumptions C99_nit.
Theorem C99_sdt : follows_hits sdt_parse sdt_add sdt_bit.
Proof. exact P_hits2.sdt_hits. Qed.
Print Assumptions C99_sdt.
Theorem C99_eit : follows_hits eit_parse eit_add eit_bit.
Proof. exact P_hits2.eit_hits. Qed.
Print Assumptions C99_eit.
Theorem C99_tot : follows_hits tot_parse tot_add tot_bit.
Proof. exact P_hits2.tot_hits. Qed.
Print Assumptions C99_tot.
(** a table counts as whole when all its packets come and each of its sections comes as sent; without errors in the sections the marks are those of C96 *)
Theorem C99_whole : forall l, whole (good l) <-> Forall (fun x => some_way x = true) l /\ Forall (fun g => section_in (instead g) = section_in (sent g)) (runs l).
Proof. exact P_hits2.good_whole. Qed.
Print Assumptions C99_whole.
Theorem C99_clean : forall l, Forall (fun g => section_in (instead g) = section_in (sent g)) (runs l) -> good l = come_marks l.
Proof. exact P_hits2.good_clean. Qed.
Print Assumptions C99_clean.
(** in a multiplex: the packets that come are a stream for the reader, and those of a PID are those of the tables on this PID *)
Theorem C99_multi : forall m jobs c dst c' mk pid, is_out m jobs c dst c' (map fst mk) -> Forall same_pid mk ->
  in_stream (concat (come mk)) (come mk) /\ bytes (concat (come mk)) /\
  exists xs, map fst xs = tables_on pid jobs /\ all_hits xs = filter (fun x => on pid (fst x)) mk /\ goes_out m pid (c pid) (marks_of come_marks xs) /\ filter (on pid) (come mk) = come (all_hits xs).
Proof. exact P_hits2.multi_hits. Qed.
Print Assumptions C99_multi.

(** one byte of a packet is changed *)
Definition dent (n : nat) (b : N) (x : list N) : list N := firstn n x ++ b :: skipn (S n) x.
(** the time has no CRC: a section with a bit wrong gives another time *)
Definition wrong_time : journey := [(TTdt 1700006400, map (fun x => (x, Some (dent 11 (N.lxor 1 (nth 11 x 0)) x))) (packets (TTdt 1700006400) 3))].
Theorem C99_time_refuted : exists xs, goes_out Release 18 3 (marks_of come_marks xs) /\ Forall (fun x => Forall mild (runs (snd x))) xs /\ shows Nothing (come_marks (all_hits xs)) /\
  map fst xs = [TTdt 1700006400] /\ Forall (fun x => ~ whole (good (snd x))) xs /\
  exists q, receive Debug (tdt_parse Debug) (mkPsi [] 0 0 0) 5 (come (all_hits xs)) = Ok (q, 1700006460).
Proof.
  exists wrong_time. split; [|split; [|split; [|split; [|split]]]].
  - unfold wrong_time. cbn [marks_of map fst snd goes_out]. split; [split; reflexivity|]. split; [|exists 4; split; [vm_compute; reflexivity|exact I]].
    apply Forall_forall. intros x J. apply Nat.eqb_eq. revert x J. apply (proj1 (forallb_forall _ _)). vm_compute. reflexivity.
  - constructor; [|constructor]. apply Forall_forall. intros g J. apply P_hits2.mild_checked. revert g J. apply (proj1 (forallb_forall _ _)). vm_compute. reflexivity.
  - vm_compute. exact I.
  - reflexivity.
  - constructor; [|constructor]. intros W. apply P_hits2.whole_check in W. revert W. vm_compute. discriminate.
  - eexists. vm_compute. reflexivity.
Qed.
Print Assumptions C99_time_refuted.

(** two PATs and a guide of two events on one PID; the first PAT is lost, and a byte of the first event and stuffing of the second PAT arrive wrong *)
Definition hit_tables : journey := [(TPat ex_pat, map (fun x => (x, None)) (packets (TPat ex_pat) 14));
  (TEit two, match packets (TEit two) 15 with [x; y] => [(x, Some (dent 30 7 x)); (y, Some y)] | _ => [] end); (TPat ex_pat, map (fun x => (x, Some (dent 187 1 (dent 1 0xC1 x)))) (packets (TPat ex_pat) 1))].
Example C99_ex : goes_out Release 18 14 (marks_of come_marks hit_tables) /\ Forall (fun x => Forall mild (runs (snd x))) hit_tables /\ shows Nothing (come_marks (all_hits hit_tables)) /\
  map (fun x => map snd (good (snd x))) hit_tables = [[false]; [false; true]; [true]] /\
  match receive Debug (eit_parse Debug) (mkPsi [] 0 0 0) eit_default (come (all_hits hit_tables)) with Ok (_, u) => Some (map eiti_id (eit_items u)) | _ => None end = Some [8] /\
  match receive Debug (pat_parse Debug) (mkPsi [] 0 0 0) pat_default (come (all_hits hit_tables)) with Ok (_, u) => Some (length (pat_items u)) | _ => None end = Some (length (pat_items ex_pat)).
Proof.
  destruct C96_ex as (G & _). unfold sent_tables in G. cbn [goes_out] in G. destruct G as (P & _ & _ & _ & E & _).
  split; [|split; [|split; [|split; [|split]]]].
  - unfold hit_tables. cbn [marks_of map fst snd goes_out]. split; [exact P|]. split.
    { apply Forall_forall. intros x J. apply Nat.eqb_eq. revert x J. apply (proj1 (forallb_forall _ _)). vm_compute. reflexivity. }
    exists 15. split; [vm_compute; reflexivity|]. split; [exact E|]. split.
    { apply Forall_forall. intros x J. apply Nat.eqb_eq. revert x J. apply (proj1 (forallb_forall _ _)). vm_compute. reflexivity. }
    exists 1. split; [vm_compute; reflexivity|]. split; [exact P|]. split.
    { apply Forall_forall. intros x J. apply Nat.eqb_eq. revert x J. apply (proj1 (forallb_forall _ _)). vm_compute. reflexivity. }
    exists 2. split; [vm_compute; reflexivity|exact I].
  - constructor; [|constructor; [|constructor; [|constructor]]]; apply Forall_forall; intros g J; apply P_hits2.mild_checked; revert g J; apply (proj1 (forallb_forall _ _)); vm_compute; reflexivity.
  - vm_compute. exact I.
  - vm_compute. reflexivity.
  - vm_compute. reflexivity.
  - vm_compute. reflexivity.
Qed.

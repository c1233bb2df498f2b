(** Property theorems C96: tables of all kinds of which packets are lost. Specification: S_lossy, S_multi, S_loss. *)
From Verif Require Import Prelude Layout S_ts S_utils S_psi M_ts M_text M_psi M_drive M_recv M_desc S_desc M_tables S_tables
  M_reader S_reader M_system S_system S_loss M_multi S_multi S_lossy Props_tables Props_system Props_multi.
From Verif Require P_lossy.

(** * C96 *)
(** what arrives: for each table sent, in order, the sections of which all packets arrive, and nothing of the others *)
Definition follows_tables {T} (parse : mode -> T -> psi -> res T) (add : T -> T -> T) (bit : table -> list (list N * bool) -> option T -> Prop) : Prop :=
  forall m pid cc xs, pid < 8192 -> cc < 16 -> goes_out m pid cc xs -> shows Nothing (all_packets xs) ->
  exists ps, Forall2 (fun x o => bit (fst x) (snd x) o) xs ps /\
    forall m' p old, exists q, receive m' (parse m') p old (got (all_packets xs)) = Ok (q, fold_left add (somes ps) old).
Theorem C96_pat : follows_tables pat_parse pat_add pat_bit.
Proof. exact P_lossy.pat_lossy. Qed.
Print Assumptions C96_pat.
Theorem C96_pmt : follows_tables pmt_parse pmt_add pmt_bit.
Proof. exact P_lossy.pmt_lossy. Qed.
Print Assumptions C96_pmt.
Theorem C96_nit : follows_tables nit_parse nit_add nit_bit.
Proof. exact P_lossy.nit_lossy. Qed.
Print Assumptions C96_nit.
Theorem C96_sdt : follows_tables sdt_parse sdt_add sdt_bit.
Proof. exact P_lossy.sdt_lossy. Qed.
Print Assumptions C96_sdt.
Theorem C96_eit : follows_tables eit_parse eit_add eit_bit.
Proof. exact P_lossy.eit_lossy. Qed.
Print Assumptions C96_eit.
Theorem C96_tot : follows_tables tot_parse tot_add tot_bit.
Proof. exact P_lossy.tot_lossy. Qed.
Print Assumptions C96_tot.
(** the time: the last that arrives *)
Theorem C96_tdt : forall m pid cc xs, pid < 8192 -> cc < 16 -> goes_out m pid cc xs -> shows Nothing (all_packets xs) ->
  exists ps, Forall2 (fun x o => tdt_bit (fst x) (snd x) o) xs ps /\
    forall m' p old, exists q, receive m' (tdt_parse m') p old (got (all_packets xs)) = Ok (q, last (somes ps) old).
Proof. exact P_lossy.tdt_lossy. Qed.
Print Assumptions C96_tdt.
(** of a table that arrives whole everything, of a table that is lost nothing; the runs of packets are the packets *)
Theorem C96_whole : forall A T (items : list A) l (o : option T) mk, sections items l o mk -> (whole l -> exists u, o = Some u /\ mk items u) /\ (lost l -> o = None).
Proof. intros A T items l o mk H. split; [exact (P_lossy.sections_whole items l o mk H)|exact (P_lossy.sections_lost items l o mk H)]. Qed.
Print Assumptions C96_whole.
Theorem C96_runs : forall l : list (list N * bool), concat (runs l) = l /\ Forall (fun g => g <> []) (runs l).
Proof. intros l. split; [exact (P_lossy.runs_concat l)|exact (P_lossy.runs_some l)]. Qed.
Print Assumptions C96_runs.
(** losses show when a start arrives soon after each *)
Theorem C96_soon : forall l, soon_again l -> shows Nothing l.
Proof. exact P_lossy.soon_shows. Qed.
Print Assumptions C96_soon.
(** the packets of a PID in a multiplex of which some arrive are those of the tables on this PID; what arrives is a stream for the reader (C62_follow) *)
Theorem C96_multi : forall m jobs c dst c' mk pid, is_out m jobs c dst c' (map fst mk) ->
  in_stream (concat (got mk)) (got mk) /\ bytes (concat (got mk)) /\
  exists xs, map fst xs = tables_on pid jobs /\ all_packets xs = filter (fun x => on pid (fst x)) mk /\ goes_out m pid (c pid) xs /\ filter (on pid) (got mk) = got (all_packets xs).
Proof.
  intros m jobs c dst c' mk pid O. destruct (P_lossy.got_stream m jobs c dst c' mk O) as [S B]. split; [exact S|]. split; [exact B|].
  destruct (P_lossy.multi_lossy m jobs c dst c' mk pid O) as (xs & X1 & X2 & X3). exists xs. split; [exact X1|]. split; [exact X2|]. split; [exact X3|].
  rewrite X2. apply P_lossy.got_filter.
Qed.
Print Assumptions C96_multi.

(** two PATs and a guide of two events on one PID; the packet with the second event is lost *)
Definition two : eit := mkEit 0x4E 1 2 3 4 [mkEitI 7 1700006400 3600 4 0 []; mkEitI 8 1700010000 1800 1 0 []].
Definition packets (t : table) (cc : N) : list (list N) := match send Release t 18 cc [] with Ok (_, out) => chop 188 out | _ => [] end.
Definition sent_tables : delivery := [(TPat ex_pat, map (fun x => (x, true)) (packets (TPat ex_pat) 14));
  (TEit two, match packets (TEit two) 15 with [x; y] => [(x, true); (y, false)] | _ => [] end); (TPat ex_pat, map (fun x => (x, true)) (packets (TPat ex_pat) 1))].
Example C96_ex : goes_out Release 18 14 sent_tables /\ soon_again (all_packets sent_tables) /\ length (all_packets sent_tables) = 4%nat /\
  match receive Debug (eit_parse Debug) (mkPsi [] 0 0 0) eit_default (got (all_packets sent_tables)) with Ok (_, u) => Some (map eiti_id (eit_items u)) | _ => None end = Some [7] /\
  match receive Debug (pat_parse Debug) (mkPsi [] 0 0 0) pat_default (got (all_packets sent_tables)) with Ok (_, u) => Some (length (pat_items u)) | _ => None end = Some (2 * length (pat_items ex_pat))%nat.
Proof.
  assert (P : sendable (TPat ex_pat)) by (split; [|apply Nat.leb_le; vm_compute; reflexivity]; split; [reflexivity|]; split; [reflexivity|]; repeat constructor).
  assert (E : sendable (TEit two)).
  { left. unfold pf_sendable, two. cbn [eit_table eit_version eit_pnr eit_tsid eit_onid eit_items]. split; [|split; [|split; [|split]]].
    - unfold eit_ok. cbn [eit_table eit_version eit_pnr eit_tsid eit_onid eit_items]. do 5 (split; [reflexivity|]).
      constructor; [|constructor; [|constructor]]; unfold eit_item_ok; cbn [eiti_id eiti_start eiti_duration eiti_status eiti_ca eiti_descs];
        (do 5 (split; [reflexivity|]); split; [constructor|]; apply Nat.ltb_lt; vm_compute; reflexivity).
    - unfold eit_fits. cbn [eit_items]. constructor; [|constructor; [|constructor]]; apply Nat.leb_le; vm_compute; reflexivity.
    - constructor; [|constructor; [|constructor]]; constructor.
    - left. reflexivity.
    - cbn [length]. lia. }
  split; [|split; [|split; [|split]]].
  - unfold sent_tables. cbn [goes_out]. split; [exact P|]. split; [apply Forall_map, Forall_forall; intros x I; apply Nat.eqb_eq; revert x I; apply (proj1 (forallb_forall _ _)); vm_compute; reflexivity|].
    exists 15. split; [vm_compute; reflexivity|]. split; [exact E|]. split.
    { apply Forall_forall. intros x I. apply Nat.eqb_eq. revert x I. apply (proj1 (forallb_forall _ _)). vm_compute. reflexivity. }
    exists 1. split; [vm_compute; reflexivity|]. split; [exact P|]. split; [apply Forall_map, Forall_forall; intros x I; apply Nat.eqb_eq; revert x I; apply (proj1 (forallb_forall _ _)); vm_compute; reflexivity|].
    exists 2. split; [vm_compute; reflexivity|exact I].
  - assert (L : length (all_packets sent_tables) = 4%nat) by (vm_compute; reflexivity). assert (F : match all_packets sent_tables with x :: _ => snd x && flag (fst x) 9 | [] => false end = true) by (vm_compute; reflexivity).
    revert L F. generalize (all_packets sent_tables). intros l L F. split.
    + intros a x b ->. destruct a as [|y a]; cbn [app] in F; apply andb_true_iff in F as [F1 F2]; [right; exact F2|left; constructor; split; assumption].
    + intros a x b c ->. rewrite !app_length in L. cbn [length] in L. rewrite app_length in L. lia.
  - vm_compute. reflexivity.
  - vm_compute. reflexivity.
  - vm_compute. reflexivity.
Qed.

(** Property theorems C95: a stream tells which tables were sent. Specification: S_tell, S_multi. *)
From Verif Require Import Prelude Layout S_ts S_utils S_psi M_ts M_text M_psi M_drive M_recv M_desc S_desc M_tables S_tables
  M_reader S_reader M_system S_system M_multi S_multi S_tell Props_tables Props_system Props_multi.
From Verif Require P_tell.

(** * C95 *)
Definition all_few (jobs : list (N * table)) : Prop := Forall (fun j => few (snd j)) jobs.
(** from all packets: the tables, of all kinds, in their order, with their PIDs and first counters. A build that checks for overflow must
    not stop; it does so only for schedules (C94_done) *)
Theorem C95_whole : forall m m' jobs jobs' c d dst c1 d1 out, jobs_ok jobs -> jobs_ok jobs' -> all_few jobs -> all_few jobs' -> (forall p, c p < 16) -> (forall p, d p < 16) ->
  multiplex Debug jobs c dst <> Panic -> multiplex Debug jobs' d dst <> Panic ->
  multiplex m jobs c dst = Ok (c1, out) -> multiplex m' jobs' d dst = Ok (d1, out) -> jobs = jobs' /\ Forall (fun j => c (fst j) = d (fst j)) jobs.
Proof. exact P_tell.jobs_tell. Qed.
Print Assumptions C95_whole.
(** from the packets of a PID: the tables on this PID, whatever is on others and wherever the packets are between them *)
Theorem C95_pid : forall jobs jobs' c d dst dst' c1 d1 pks pks' pid, is_out Debug jobs c dst c1 pks -> is_out Debug jobs' d dst' d1 pks' -> all_few jobs -> all_few jobs' ->
  filter (on pid) pks = filter (on pid) pks' -> tables_on pid jobs = tables_on pid jobs'.
Proof.
  intros jobs jobs' c d dst dst' c1 d1 pks pks' pid (J & C & E & P) (J' & C' & E' & P') W W' F.
  exact (P_tell.pid_tells jobs jobs' c d dst dst' c1 d1 pks pks' pid J J' W W' C C' E E' P P' F).
Qed.
Print Assumptions C95_pid.
(** where a table begins can be told from one section: of the packets of a table, those that start a section which begins a table are the first alone *)
Theorem C95_begins : forall t pid cc r, sendable t -> few t -> pid < 8192 -> cc < 16 -> send Debug t pid cc [] = Ok r ->
  exists s ss, r = (next_cc pid cc (s :: ss), concat (stream pid cc (s :: ss))) /\ Forall framed (s :: ss) /\ begins s = true /\ Forall (fun s => begins s = false) ss.
Proof.
  intros t pid cc r S W P C D. destruct (P_tell.send_looks t pid cc r S W P C D) as (l & ((F & _) & (s & ss & -> & B & NB) & _) & E). exists s, ss. auto.
Qed.
Print Assumptions C95_begins.

(** beyond 256 sections it can not be told: present/following tables of 512 events are sent as two of 256 are *)
Definition with_events (t : eit) (l : list eit_item) : eit := mkEit (eit_table t) (eit_version t) (eit_pnr t) (eit_tsid t) (eit_onid t) l.
Theorem C95_events : forall m t a b pid cc dst, pf_sendable (with_events t a) -> pf_sendable (with_events t b) -> length a = 256%nat -> length b = 256%nat -> pid < 8192 -> cc < 16 ->
  exists r, eit_demux m (with_events t (a ++ b)) pid cc dst = Ok r /\ (' (cc', out) <- eit_demux m (with_events t a) pid cc dst ;; eit_demux m (with_events t b) pid cc' out) = Ok r.
Proof. exact P_tell.two_guides. Qed.
Print Assumptions C95_events.
Definition show : eit_item := mkEitI 7 1700006400 3600 4 0 [].
Lemma many_sendable : pf_sendable (with_events (mkEit 0x4E 1 2 3 4 []) (repeat show 256)).
Proof.
  unfold pf_sendable, with_events. cbn [eit_table eit_version eit_pnr eit_tsid eit_onid eit_items].
  assert (I : forall P : eit_item -> Prop, P show -> Forall P (repeat show 256)) by (intros P H; apply Forall_forall; intros i Hi; apply repeat_spec in Hi; subst i; exact H).
  split; [|split; [|split; [|split]]].
  - unfold eit_ok. cbn [eit_table eit_version eit_pnr eit_tsid eit_onid eit_items]. do 5 (split; [reflexivity|]). apply I. unfold eit_item_ok, show. cbn [eiti_id eiti_start eiti_duration eiti_status eiti_ca eiti_descs].
    do 5 (split; [reflexivity|]). split; [constructor|]. apply Nat.ltb_lt. vm_compute. reflexivity.
  - unfold eit_fits. cbn [eit_items]. apply I. apply Nat.leb_le. vm_compute. reflexivity.
  - apply I. constructor.
  - left. reflexivity.
  - rewrite repeat_length. lia.
Qed.

Definition blank : eit := mkEit 0x4E 1 2 3 4 [].
Lemma one_two pid t u v r : eit_demux Debug t pid 0 [] = Ok r -> (' (cc', out) <- eit_demux Debug u pid 0 [] ;; eit_demux Debug v pid cc' out) = Ok r ->
  exists c d out, multiplex Debug [(pid, TEit t)] (fun _ => 0) [] = Ok (c, out) /\ multiplex Debug [(pid, TEit u); (pid, TEit v)] (fun _ => 0) [] = Ok (d, out).
Proof.
  intros E F. destruct r as (e & out). cbn [multiplex send]. rewrite E. cbn [bind].
  destruct (eit_demux Debug u pid 0 []) as [[e1 o1]| |]; try discriminate F. cbn [bind] in F |- *. replace (put (fun _ => 0) pid e1 pid) with e1 by (unfold put; rewrite N.eqb_refl; reflexivity). rewrite F. cbn [bind]. eauto 6.
Qed.
(** so without the bound on the events, different tables give the same packets *)
Theorem C95_refuted : exists jobs jobs' c d1 out d1' , (forall p, c p < 16) /\ jobs <> jobs' /\
  multiplex Debug jobs c [] = Ok (d1, out) /\ multiplex Debug jobs' c [] = Ok (d1', out) /\ length jobs = 1%nat /\ length jobs' = 2%nat.
Proof.
  destruct (C95_events Debug blank (repeat show 256) (repeat show 256) 18 0 []) as (r & E & F); try exact many_sendable; try (apply repeat_length); try reflexivity.
  destruct (one_two _ _ _ _ _ E F) as (c & d & out & H & K).
  eexists _, _, (fun _ => 0), c, out, d. split; [reflexivity|]. split; [|split; [exact H|split; [exact K|split; reflexivity]]].
  intros X. apply (f_equal (@length _)) in X. discriminate X.
Qed.
Print Assumptions C95_refuted.

(** the jobs of C94_ex, and others that differ in their order, in one PID and in one time; a schedule that goes on in a second table *)
Definition swapped : list (N * table) := [(0, TPat ex_pat); (20, TTot (mkTot 1000060 [])); (20, TTdt 1000000); (0, TPat ex_pat)].
Definition guide : eit := mkEit 0x50 0 1 1 1 (map (fun i => mkEitI i (1700006400 + 10800 * i) 60 0 0 []) [1; 2; 3]).
Definition out_of (jobs : list (N * table)) : list N := match multiplex Debug jobs start [] with Ok (_, out) => out | _ => [] end.
Example C95_ex : all_few jobs /\ all_few swapped /\ out_of jobs <> out_of swapped /\
  match send Debug (TEit guide) 18 0 [] with Ok (_, out) => Some (map (fun x => (field x 40 8, field x 88 8, begins (skipn 5 x))) (chop 188 out)) | _ => None end =
  Some [(0x50, 0, true); (0x50, 8, false); (0x50, 16, false); (0x50, 24, false)].
Proof.
  split; [repeat constructor|]. split; [repeat constructor|]. split; [|vm_compute; reflexivity].
  assert (E : nth 193 (out_of jobs) 0 <> nth 193 (out_of swapped) 0) by (vm_compute; discriminate). intros X. rewrite X in E. exact (E eq_refl).
Qed.

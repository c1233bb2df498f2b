(** Property theorems C94: tables of all kinds on several PIDs in one buffer. Specification: S_multi, S_system. *)
From Verif Require Import Prelude Layout S_ts S_utils S_psi M_ts M_text M_psi M_drive M_recv M_desc S_desc M_tables S_tables
  M_reader S_reader M_system S_system M_multi S_multi Props_tables Props_system.
From Verif Require P_multi.

(** * C94 *)
(** the packets [pks] are what [multiplex] writes behind [dst] for the jobs, starting with the counters [c] *)
Definition is_out (m : mode) (jobs : list (N * table)) (c : N -> N) (dst : list N) (c' : N -> N) (pks : list (list N)) : Prop :=
  jobs_ok jobs /\ (forall p, c p < 16) /\ multiplex m jobs c dst = Ok (c', dst ++ concat pks) /\ Forall (fun x => length x = 188%nat) pks.
(** it writes packets; without overflow checks, or without schedules, it never aborts *)
Theorem C94_packets : forall m jobs c dst c' out, jobs_ok jobs -> (forall p, c p < 16) -> multiplex m jobs c dst = Ok (c', out) ->
  exists pks, out = dst ++ concat pks /\ is_out m jobs c dst c' pks.
Proof.
  intros m jobs c dst c' out J C E. destruct (P_multi.out_exists m jobs c dst c' out J C E) as (pks & X & L). exists pks. split; [exact X|].
  split; [exact J|]. split; [exact C|]. split; [rewrite <- X; exact E|exact L].
Qed.
Print Assumptions C94_packets.
Theorem C94_done : forall m jobs c dst, jobs_ok jobs -> (forall p, c p < 16) ->
  (m = Debug -> Forall (fun j => match snd j with TEit t => ~ 0x50 <= eit_table t | _ => True end) jobs) -> exists r, multiplex m jobs c dst = Ok r.
Proof. intros m jobs c dst J C Z. exact (P_multi.multi_done m jobs J Z c dst C). Qed.
Print Assumptions C94_done.
(** on every PID the counter goes on without a gap, over all tables, whatever is sent on other PIDs in between *)
Theorem C94_counters : forall m jobs c dst c' pks, is_out m jobs c dst c' pks -> forall pid,
  running pid (c pid) (filter (on pid) pks) /\ c' pid = (c pid + N.of_nat (length (filter (on pid) pks))) mod 16.
Proof. exact P_multi.out_running. Qed.
Print Assumptions C94_counters.
(** what is written is a stream that a TsReader reads as these packets, in any pieces *)
Theorem C94_stream : forall m jobs c dst c' pks sched buf n, is_out m jobs c dst c' pks -> no_fail sched -> (188 <= length buf)%nat -> (length pks < n)%nat ->
  readable (concat pks) pks sched buf n.
Proof. intros m jobs c dst c' pks sched buf n O S B L. destruct (P_multi.out_stream m jobs c dst c' pks O) as [I X]. repeat split; assumption. Qed.
Print Assumptions C94_stream.

(** ** a receiver of a kind on a PID gets the tables of this kind on this PID, in order, and nothing else *)
Definition gets {T} (parse : mode -> T -> psi -> res T) (good : list table -> T -> T -> Prop) : Prop :=
  forall m jobs c dst c' pks, is_out m jobs c dst c' pks -> forall m' pid p old, exists q u,
    receive m' (parse m') p old (filter (on pid) pks) = Ok (q, u) /\ good (tables_on pid jobs) old u.
Theorem C94_pat : gets pat_parse (fun ts old u => u = fold_left pat_add (pats ts) old).
Proof. exact (P_multi.out_heard _ _ _ P_multi.pat_hears P_multi.pat_steps). Qed.
Print Assumptions C94_pat.
Theorem C94_pmt : gets pmt_parse (fun ts old u => u = fold_left pmt_add (pmts ts) old).
Proof. exact (P_multi.out_heard _ _ _ P_multi.pmt_hears P_multi.pmt_steps). Qed.
Print Assumptions C94_pmt.
Theorem C94_nit : gets nit_parse (fun ts old u => u = fold_left nit_add (nits ts) old).
Proof. exact (P_multi.out_heard _ _ _ P_multi.nit_hears P_multi.nit_steps). Qed.
Print Assumptions C94_nit.
Theorem C94_sdt : gets sdt_parse (fun ts old u => u = fold_left sdt_add (sdts ts) old).
Proof. exact (P_multi.out_heard _ _ _ P_multi.sdt_hears P_multi.sdt_steps). Qed.
Print Assumptions C94_sdt.
Theorem C94_eit : gets eit_parse (fun ts old u => guide_seen (eits ts) old u).
Proof. exact (P_multi.out_heard _ _ _ P_multi.eit_hears P_multi.eit_steps). Qed.
Print Assumptions C94_eit.
Theorem C94_tdt : gets tdt_parse (fun ts old u => u = last (tdts ts) old).
Proof. exact (P_multi.out_heard _ _ _ P_multi.tdt_hears P_multi.tdt_steps). Qed.
Print Assumptions C94_tdt.
Theorem C94_tot : gets tot_parse (fun ts old u => u = fold_left tot_add (tots ts) old).
Proof. exact (P_multi.out_heard _ _ _ P_multi.tot_hears P_multi.tot_steps). Qed.
Print Assumptions C94_tot.
(** from the first call to the table at the other end *)
Theorem C94_followed : forall T (parse : mode -> T -> psi -> res T) good, gets parse good -> forall m jobs c c' out, jobs_ok jobs -> (forall p, c p < 16) ->
  multiplex m jobs c [] = Ok (c', out) -> forall m' pid sched buf n p old, no_fail sched -> (188 <= length buf)%nat -> (length out < 188 * n)%nat ->
  exists s q u, follow n m' (parse m') pid (mkSource out sched) buf p old = Ok (s, q, u) /\ s_data s = [] /\ good (tables_on pid jobs) old u.
Proof.
  intros T parse good G m jobs c c' out J C E m' pid sched buf n p old S B L. destruct (C94_packets m jobs c [] c' out J C E) as (pks & -> & O). cbn [app] in *.
  assert (N1 : length (concat pks) = (188 * length pks)%nat).
  { destruct O as (_ & _ & _ & F). clear - F. induction F as [|x l X _ IH]; [reflexivity|]. cbn [concat length]. rewrite app_length, IH, X. lia. }
  destruct (G m jobs c [] c' pks O m' pid p old) as (q & u & R & Q).
  pose proof (C62_follow T m' (parse m') pid (concat pks) pks sched buf n p old (C94_stream m jobs c [] c' pks sched buf n O S B ltac:(lia))) as H. rewrite R in H.
  destruct H as (s & H1 & H2). exists s, q, u. auto.
Qed.
Print Assumptions C94_followed.

(** the packets may be put in any other order in which those of a PID stay in theirs, with packets of other PIDs in between, as a
    multiplexer that spreads its tables does, and with bytes between them that are no packets *)
Theorem C94_spread : forall T (parse : mode -> T -> psi -> res T) good, gets parse good -> forall m jobs c dst c' pks, is_out m jobs c dst c' pks ->
  forall pid data spread, filter (on pid) spread = filter (on pid) pks -> forall m' sched buf n p old, readable data spread sched buf n ->
  exists s q u, follow n m' (parse m') pid (mkSource data sched) buf p old = Ok (s, q, u) /\ s_data s = [] /\ good (tables_on pid jobs) old u.
Proof.
  intros T parse good G m jobs c dst c' pks O pid data spread E m' sched buf n p old R. destruct (G m jobs c dst c' pks O m' pid p old) as (q & u & X & Q).
  pose proof (C62_follow T m' (parse m') pid data spread sched buf n p old R) as H. rewrite E, X in H. destruct H as (s & H1 & H2). exists s, q, u. auto.
Qed.
Print Assumptions C94_spread.

(** a PAT, the time on PID 20, a TOT on the same PID, the PAT again on PID 0 behind them *)
Definition jobs : list (N * table) := [(0, TPat ex_pat); (20, TTdt 1000000); (20, TTot (mkTot 1000060 [])); (0, TPat ex_pat)].
Definition start (p : N) : N := if p =? 20 then 15 else 7.
Definition written : list N := match multiplex Debug jobs start [1; 2] with Ok (_, out) => out | _ => [] end.
Definition packet_list : list (list N) := chop 188 (skipn 2 written).
Definition table_of {T} (r : res (psi * T)) : option T := match r with Ok (_, t) => Some t | _ => None end.
Example C94_ex : jobs_ok jobs /\
  match multiplex Debug jobs start [1; 2] with Ok (c, out) => Some (map c [0; 20; 21], out) | _ => None end = Some ([9; 1; 7], [1; 2] ++ concat packet_list) /\
  map (fun x => (field x 11 13, field x 28 4)) packet_list = [(0, 7); (20, 15); (20, 0); (0, 8)] /\
  table_of (receive Debug (tdt_parse Debug) psi_default 5 (filter (on 20) packet_list)) = Some 1000000 /\
  table_of (receive Debug (tot_parse Debug) psi_default tot_default (filter (on 20) packet_list)) = Some (mkTot 1000060 []) /\
  table_of (receive Debug (pat_parse Debug) psi_default pat_default (filter (on 20) packet_list)) = Some pat_default /\
  table_of (receive Debug (pat_parse Debug) psi_default pat_default (filter (on 0) packet_list)) = Some (mkPat 7 0x1234 (pat_items ex_pat ++ pat_items ex_pat)).
Proof.
  assert (P : pat_sendable ex_pat) by (split; [|apply Nat.leb_le; vm_compute; reflexivity]; split; [reflexivity|]; split; [reflexivity|]; repeat constructor).
  split.
  - constructor; [split; [reflexivity|exact P]|]. constructor; [split; [reflexivity|vm_compute; reflexivity]|]. constructor; [split; [reflexivity|]|].
    + split; [vm_compute; reflexivity|]. split; [split; [constructor|apply Nat.ltb_lt; vm_compute; reflexivity]|]. split; [apply Nat.leb_le; vm_compute; reflexivity|constructor].
    + constructor; [split; [reflexivity|exact P]|constructor].
  - do 5 (split; [vm_compute; reflexivity|]). vm_compute. reflexivity.
Qed.
(** the same packets, those of PID 20 first, a packet of PID 33 and three stray bytes in between *)
Definition other : list N := [0x47; 0; 33; 0x10] ++ repeat 0xFF 184.
Definition spread : list (list N) := filter (on 20) packet_list ++ other :: filter (on 0) packet_list.
Definition strayed : list N := [1; 2; 3] ++ concat spread.
Example C94_spread_ex : filter (on 20) spread = filter (on 20) packet_list /\ filter (on 0) spread = filter (on 0) packet_list /\
  match follow 9 Debug (tot_parse Debug) 20 (mkSource strayed [Chunk 100; Chunk 300]) (repeat 0 188) psi_default tot_default with
  | Ok (s, _, u) => Some (s_data s, u) | _ => None end = Some ([], mkTot 1000060 []).
Proof. split; [vm_compute; reflexivity|]. split; vm_compute; reflexivity. Qed.

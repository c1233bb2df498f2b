(** Property theorems C79: packets moved to other PIDs and counted anew. Specification: S_remux. *)
From Verif Require Import Prelude Layout S_ts S_crc S_utils S_psi M_text M_ts M_psi M_drive M_recv M_desc S_desc M_tables S_tables Props_tables
  M_reader S_reader M_system S_system Props_system M_from M_tune M_remux S_remux.
From Verif Require P_remux W_remux Facts.

(** * C79 *)
(** packets that have a route come out in their order on the new PID with all else as it was, the others are dropped *)
Theorem C79_route : forall m route l, Forall sound l -> (forall pid q, route pid = Some q -> q < 8192) -> remap m route l = Ok (routed route l).
Proof. exact P_remux.remap_spec. Qed.
Print Assumptions C79_route.
(** what the library reads from a packet beside its PID does not change *)
Theorem C79_reads : forall m q pk, sound pk -> is_sync (retag q pk) = is_sync pk /\ is_error (retag q pk) = is_error pk /\ is_pusi (retag q pk) = is_pusi pk /\
  is_scrambled (retag q pk) = is_scrambled pk /\ is_payload (retag q pk) = is_payload pk /\ get_cc (retag q pk) = get_cc pk /\
  get_payload_offset m (retag q pk) = get_payload_offset m pk /\ is_pcr (retag q pk) = is_pcr pk /\ get_pcr m (retag q pk) = get_pcr m pk /\
  skipn (N.to_nat (payload_at pk)) (retag q pk) = skipn (N.to_nat (payload_at pk)) pk.
Proof. exact P_remux.retag_reads. Qed.
Print Assumptions C79_reads.
(** any receiver (of any table, in any state) on the new PID sees what it saw on the old one, if no other PID is moved there: whatever the
    packets are, complete or not *)
Theorem C79_table : forall T m m' (parse : T -> psi -> res T) route pid q l p t, Forall sound l -> (forall x y, route x = Some y -> y < 8192) ->
  route pid = Some q -> (forall x, route x = Some q -> x = pid) ->
  exists out, remap m route l = Ok out /\ receive m' parse p t (filter (on q) out) = receive m' parse p t (filter (on pid) l).
Proof. exact P_remux.remap_table. Qed.
Print Assumptions C79_table.

(** ** counters *)
(** a table does not look at the counter that Psi keeps *)
Definition blind {T} (parse : T -> psi -> res T) : Prop := forall t p c, parse t (with_cc p c) = parse t p.
Theorem C79_blind : forall m ids want, blind (pat_parse m) /\ blind (pmt_parse m) /\ blind (nit_parse m) /\ blind (sdt_parse m) /\ blind (eit_parse m) /\
  blind (tdt_parse m) /\ blind (tot_parse m) /\ blind (latest ids (pat_from m)) /\ blind (latest ids (pmt_from m)) /\ blind (latest ids (nit_from m)) /\
  blind (latest ids (sdt_from m)) /\ blind (latest ids (eit_from m)) /\ blind (latest ids (tot_from m)) /\ blind (latest_pmt m want).
Proof. intros m ids want. repeat split; intros t p c; reflexivity. Qed.
Print Assumptions C79_blind.
(** the same end, with the same table and the same bytes collected *)
Definition outcome {T} (a b : res (psi * T)) : Prop :=
  match a with
  | Ok (q, u) => exists q', b = Ok (q', u) /\ p_buffer q' = p_buffer q /\ p_size q' = p_size q
  | Panic => b = Panic
  | Hang => b = Hang
  end.
(** adding the same to all counters (that of the receiver too) changes nothing, with any losses *)
Theorem C79_shift : forall T m (parse : T -> psi -> res T) d p t l, blind parse -> Forall sound l -> p_cc p < 16 ->
  outcome (receive m parse p t l) (receive m parse (with_cc p ((p_cc p + d) mod 16)) t (map (fun pk => recount ((field pk 28 4 + d) mod 16) pk) l)).
Proof. exact P_remux.shift_any. Qed.
Print Assumptions C79_shift.
(** counting anew, from any number: the packets differ in their counters only; if none is missing and the first starts a section,
    every receiver in any state sees the same *)
Theorem C79_renumber : forall T m m' (parse : T -> psi -> res T) pk l c p t, blind parse -> Forall sound (pk :: l) -> opens pk -> unbroken (field pk 28 4) l -> c < 16 ->
  exists out, renumber m c (pk :: l) = Ok out /\ unbroken c out /\ Forall2 (fun a b => exists c, b = recount c a) (pk :: l) out /\
    outcome (receive m' parse p t (pk :: l)) (receive m' parse p t out).
Proof. exact P_remux.renumber_any. Qed.
Print Assumptions C79_renumber.

(** ** a program taken out of a stream *)
(** the PMT on [pid] is moved to [q], a PAT with this program alone is made with the library and sent any number of times, the first time in front:
    who follows the program in the new stream has the PMT that one finds on [pid] in the old one *)
Theorem C79_service : forall m m' v tsid want q route pid l out ts o x b p u, v < 32 -> tsid < 65536 -> want < 65536 -> q < 8192 -> q <> 0 ->
  (forall x y, route x = Some y -> y < 8192) -> route pid = Some q -> (forall x, route x = Some q -> x = pid) ->
  Forall sound l -> remap m route l = Ok out ->
  sent (pat_demux m) 0 ts o -> Forall (eq (mkPat v tsid [mkPatI want q])) ts ->
  Forall (fun pk => length pk = 188%nat /\ bytes pk) (x :: b) -> on 0 x = true -> concat (filter (on 0) (x :: b)) = o -> filter (on q) (x :: b) = filter (on q) out ->
  receive m' (latest_pmt m' want) psi_default pmt_default (filter (on pid) l) = Ok (p, u) ->
  exists p0, tune m' want tuner_new (x :: b) = Ok (mkTuner p0 (mkPat v tsid [mkPatI want q]) p u).
Proof. exact W_remux.extract. Qed.
Print Assumptions C79_service.

(** ** where the conditions are needed *)
Definition raw (pusi pid cc : N) (payload : list N) : list N := ts_header 0x47 0 pusi 0 pid 0 0 1 cc ++ payload ++ repeat 255 (184 - length payload).
Definition programs (n : nat) (version : N) : list pat_item := map (fun i => mkPatI (100 * version + N.of_nat i) (256 + N.of_nat i)) (seq 0 n).
Definition pat_of (n : nat) (version : N) : pat := mkPat version 1 (programs n version).
Definition sec_of (n : nat) (version : N) : list N := pat_section (pat_of n version) (programs n version).
Definition soundb (pk : list N) : bool := (length pk =? 188)%nat && bytesb pk && (negb (flag pk 26) || (field pk 32 8 <=? 250)).
Lemma soundb_ok l : forallb soundb l = true -> Forall sound l.
Proof.
  intros H. apply Forall_forall. intros x Hx. rewrite forallb_forall in H. specialize (H x Hx). unfold soundb in H. rewrite !andb_true_iff in H. destruct H as [[H1 H2] H3].
  split; [apply Nat.eqb_eq; exact H1|]. split; [apply Facts.bytesb_iff; exact H2|]. intros E. rewrite E in H3. cbn in H3. apply N.leb_le. exact H3.
Qed.
(** two PIDs moved to one: each carries a PAT section in two packets; neither is read any more *)
Definition twins : list (list N) :=
  [raw 1 16 0 (0 :: firstn 183 (sec_of 43 1)); raw 1 17 5 (0 :: firstn 183 (sec_of 43 2)); raw 0 16 1 (skipn 183 (sec_of 43 1)); raw 0 17 6 (skipn 183 (sec_of 43 2))].
Theorem C79_merge_refuted : exists l route, Forall sound l /\ route 16 = Some 100 /\ route 17 = Some 100 /\ (forall x y, route x = Some y -> y < 8192) /\
  forall m, (exists q, receive m (pat_parse m) psi_default pat_default (filter (on 16) l) = Ok (q, pat_of 43 1)) /\
            (exists q, receive m (pat_parse m) psi_default pat_default (filter (on 17) l) = Ok (q, pat_of 43 2)) /\
            exists q out, remap m route l = Ok out /\ receive m (pat_parse m) psi_default pat_default (filter (on 100) out) = Ok (q, pat_default).
Proof.
  exists twins, (fun _ => Some 100). split; [apply soundb_ok; vm_compute; reflexivity|]. split; [reflexivity|]. split; [reflexivity|]. split; [intros x y E; injection E as <-; reflexivity|].
  intros []; (split; [eexists; vm_compute; reflexivity|]; split; [eexists; vm_compute; reflexivity|]; eexists; eexists; split; [vm_compute; reflexivity|vm_compute; reflexivity]).
Qed.
Print Assumptions C79_merge_refuted.
(** counting anew hides losses: of a section in three packets the second got lost, the third also has the next section. With
    the counters as they were the next section is read, with new ones it is lost too *)
Definition lossy : list (list N) :=
  let a := sec_of 90 1 in let b := sec_of 1 2 in [raw 1 0 3 (0 :: firstn 183 a); raw 1 0 5 (5 :: skipn 367 a ++ b)].
Theorem C79_loss_refuted : exists l, Forall sound l /\ forall m,
  (exists q, receive m (pat_parse m) psi_default pat_default l = Ok (q, pat_of 1 2)) /\
  exists q out, renumber m 3 l = Ok out /\ receive m (pat_parse m) psi_default pat_default out = Ok (q, pat_default).
Proof.
  exists lossy. split; [apply soundb_ok; vm_compute; reflexivity|].
  intros []; (split; [eexists; vm_compute; reflexivity|]; eexists; eexists; split; [vm_compute; reflexivity|vm_compute; reflexivity]).
Qed.
Print Assumptions C79_loss_refuted.
(** an adaptation field that claims 253 bytes: without overflow checks the payload starts at the PID *)
Theorem C79_wrapped_refuted : exists pk, length pk = 188%nat /\ bytes pk /\ exists pk', set_pid Release pk 256 = Ok pk' /\ psi_mux Release psi_default pk' <> psi_mux Release psi_default pk.
Proof.
  exists (ts_header 0x47 0 0 0 17 0 1 1 1 ++ 253 :: repeat 255 183). split; [reflexivity|]. split; [apply Facts.bytesb_iff; reflexivity|].
  eexists. split; [vm_compute; reflexivity|]. vm_compute. discriminate.
Qed.
Print Assumptions C79_wrapped_refuted.

(** program 100 with its PMT on PID 256 among packets of PID 300, moved to PID 500 with a new PAT *)
Definition old_stream : list (list N) :=
  stream 0 5 [pat_section (mkPat 7 1 [mkPatI 100 256; mkPatI 200 300]) [mkPatI 100 256; mkPatI 200 300]] ++
  stream 256 9 [finished [2; 0xB0; 0; 0; 100; 0xC5; 0; 0; 0xE1; 1; 0xF0; 0; 0x1B; 0xE1; 1; 0xF0; 0]] ++ [raw 0 300 2 [1; 2; 3]].
Definition only_256 (pid : N) : option N := if pid =? 256 then Some 500 else None.
Example C79_ex : forall m, exists out p0 p cc o, remap m only_256 old_stream = Ok out /\ length out = 1%nat /\ pat_demux m (mkPat 1 9 [mkPatI 100 500]) 0 0 [] = Ok (cc, o) /\
  tune m 100 tuner_new (o :: out) = Ok (mkTuner p0 (mkPat 1 9 [mkPatI 100 500]) p (mkPmt 2 100 257 [] [mkPmtI 0x1B 257 []])).
Proof. intros []; (do 5 eexists; split; [vm_compute; reflexivity|]; split; [reflexivity|]; split; [vm_compute; reflexivity|vm_compute; reflexivity]). Qed.
Example C79_ex_renumber : exists pk l, Forall sound (pk :: l) /\ opens pk /\ unbroken (field pk 28 4) l /\ length l = 1%nat /\
  forall m, exists out q, renumber m 15 (pk :: l) = Ok out /\ map (fun pk => field pk 28 4) (pk :: l) = [15; 0] /\ map (fun pk => field pk 28 4) out = [0; 1] /\
    receive m (pat_parse m) psi_default pat_default out = Ok (q, pat_of 43 1).
Proof.
  exists (raw 1 16 15 (0 :: firstn 183 (sec_of 43 1))), [raw 0 16 0 (skipn 183 (sec_of 43 1))].
  split; [apply soundb_ok; vm_compute; reflexivity|]. split; [vm_compute; repeat split|]. split; [vm_compute; repeat split|]. split; [reflexivity|].
  intros []; (do 2 eexists; split; [vm_compute; reflexivity|]; split; [vm_compute; reflexivity|]; split; [vm_compute; reflexivity|vm_compute; reflexivity]).
Qed.

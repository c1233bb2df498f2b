(** Property theorems C90: values that do not fit their place on the wire. [X_typed] (S_sender) says only that every
    field holds a value of its Rust type; [fit_X] (S_wide) is what is left of a table in its places on the wire. *)
From Verif Require Import Prelude S_utils S_psi M_text M_psi M_recv M_desc S_desc M_tables S_tables S_sender S_wide.
From Verif Require Import Props_tables Props_eit.
From Verif Require P_wide P_wide2.

(** ** what is sent is the table with its values cut to their places *)
Theorem C90_pat : forall m t pid cc dst, pat_typed t -> pat_demux m t pid cc dst = pat_demux m (fit_pat t) pid cc dst.
Proof. intros. symmetry. apply P_wide.wide_pat. assumption. Qed.
Print Assumptions C90_pat.
Theorem C90_pmt : forall m t pid cc dst, pmt_typed t -> pmt_demux m t pid cc dst = pmt_demux m (fit_pmt t) pid cc dst.
Proof. intros. symmetry. apply P_wide.wide_pmt. assumption. Qed.
Print Assumptions C90_pmt.
Theorem C90_nit : forall m t pid cc dst, nit_typed t -> nit_demux m t pid cc dst = nit_demux m (fit_nit t) pid cc dst.
Proof. intros. symmetry. apply P_wide.wide_nit. assumption. Qed.
Print Assumptions C90_nit.
Theorem C90_sdt : forall m t pid cc dst, sdt_typed t -> sdt_demux m t pid cc dst = sdt_demux m (fit_sdt t) pid cc dst.
Proof. intros. symmetry. apply P_wide.wide_sdt. assumption. Qed.
Print Assumptions C90_sdt.
Theorem C90_eit : forall m t pid cc dst, eit_typed t -> eit_demux m t pid cc dst = eit_demux m (fit_eit t) pid cc dst.
Proof. intros. symmetry. apply P_wide.wide_eit. assumption. Qed.
Print Assumptions C90_eit.
Theorem C90_tot : forall m t pid cc dst, tot_typed t -> tot_demux m t pid cc dst = tot_demux m (fit_tot t) pid cc dst.
Proof. intros. symmetry. apply P_wide.wide_tot. assumption. Qed.
Print Assumptions C90_tot.

(** ** what is left is in range, and what is in range is left *)
Theorem C90_range : forall d, desc_typed d -> digits d -> (length (body d) < 256)%nat -> no_items d -> desc_ok (fit_desc d).
Proof. exact P_wide2.fit_ok. Qed.
Print Assumptions C90_range.
Theorem C90_kept : forall d, desc_ok d -> exact d -> fit_desc d = d.
Proof. exact P_wide2.fit_same. Qed.
Print Assumptions C90_kept.

(** ** so a receiver reads the table with its values cut to their places *)
Theorem C90_pat_received : forall m t pid cc dst, pat_typed t -> (length (pat_items t) <= 253)%nat -> pid < 8192 -> cc < 16 ->
  exists ss, sends (pat_demux m t pid cc dst) pid cc dst ss /\
  forall m' p, exists q, receive m' (pat_parse m') p pat_default (stream pid cc ss) = Ok (q, fit_pat t).
Proof.
  intros m t pid cc dst T L Hp Hc. rewrite C90_pat by exact T. apply C44_recovered; [exact (P_wide2.range_pat t T)| |exact Hp|exact Hc].
  unfold fit_pat. cbn [pat_items]. rewrite map_length. exact L.
Qed.
Print Assumptions C90_pat_received.
Theorem C90_pmt_received : forall m t pid cc dst, pmt_typed t -> pmt_descs t = [] -> Forall (fun i => loop_sized (pmti_descs i)) (pmt_items t) ->
  pmt_fits (N.to_nat 4098) t -> Forall (fun i => loop_exact (fit_loop (pmti_descs i))) (pmt_items t) -> pid < 8192 -> cc < 16 ->
  exists ss, sends (pmt_demux m t pid cc dst) pid cc dst ss /\
  forall m' p, exists q, receive m' (pmt_parse m') p pmt_default (stream pid cc ss) = Ok (q, fit_pmt t).
Proof.
  intros m t pid cc dst T D Z F X Hp Hc. rewrite C90_pmt by exact T. apply C45_recovered; [|exact (P_wide2.fits_pmt _ t F)|exact Hp|exact Hc| |].
  - apply (P_wide2.range_pmt t T); [|exact Z]. rewrite D. split; [constructor|vm_compute; lia].
  - unfold fit_pmt. cbn [pmt_descs]. rewrite D. reflexivity.
  - refine (P_wide2.map_Forall _ _ _ _ _ X). intros i Hi. exact Hi.
Qed.
Print Assumptions C90_pmt_received.
Theorem C90_nit_received : forall m t pid cc dst, nit_typed t -> loop_sized (nit_descs t) -> Forall (fun i => loop_sized (niti_descs i)) (nit_items t) ->
  nit_fits (N.to_nat 4098) t -> loop_exact (fit_loop (nit_descs t)) -> Forall (fun i => loop_exact (fit_loop (niti_descs i))) (nit_items t) ->
  nit_table t = 0x40 \/ nit_table t = 0x41 -> pid < 8192 -> cc < 16 ->
  exists ss, sends (nit_demux m t pid cc dst) pid cc dst ss /\
  forall m' p, exists q, receive m' (nit_parse m') p nit_default (stream pid cc ss) = Ok (q, fit_nit t).
Proof.
  intros m t pid cc dst T D Z F X Y I Hp Hc. rewrite C90_nit by exact T. apply C47_recovered; [exact (P_wide2.range_nit t T D Z)|exact (P_wide2.fits_nit _ t F)|exact X| |exact I|exact Hp|exact Hc].
  refine (P_wide2.map_Forall _ _ _ _ _ Y). intros i Hi. exact Hi.
Qed.
Print Assumptions C90_nit_received.
Theorem C90_sdt_received : forall m t pid cc dst, sdt_typed t -> Forall (fun i => loop_sized (sdti_descs i)) (sdt_items t) ->
  sdt_fits (N.to_nat 4098) t -> Forall (fun i => loop_exact (fit_loop (sdti_descs i))) (sdt_items t) ->
  sdt_table t = 0x42 \/ sdt_table t = 0x46 -> pid < 8192 -> cc < 16 ->
  exists ss, sends (sdt_demux m t pid cc dst) pid cc dst ss /\
  forall m' p, exists q, receive m' (sdt_parse m') p sdt_default (stream pid cc ss) = Ok (q, fit_sdt t).
Proof.
  intros m t pid cc dst T Z F Y I Hp Hc. rewrite C90_sdt by exact T. apply C48_recovered; [exact (P_wide2.range_sdt t T Z)|exact (P_wide2.fits_sdt _ t F)| |exact I|exact Hp|exact Hc].
  refine (P_wide2.map_Forall _ _ _ _ _ Y). intros i Hi. exact Hi.
Qed.
Print Assumptions C90_sdt_received.
Theorem C90_pf_received : forall m t pid cc dst, eit_typed t -> Forall (fun i => eiti_start i < MJD_END /\ loop_sized (eiti_descs i)) (eit_items t) ->
  eit_fits (N.to_nat 4098) t -> Forall (fun i => loop_exact (fit_loop (eiti_descs i))) (eit_items t) ->
  eit_table t = 0x4E \/ eit_table t = 0x4F -> (0 < length (eit_items t) <= 256)%nat -> pid < 8192 -> cc < 16 ->
  exists ss, sends (eit_demux m t pid cc dst) pid cc dst ss /\
  forall m' p, exists q, receive m' (eit_parse m') p eit_default (stream pid cc ss) = Ok (q, fit_eit t).
Proof.
  intros m t pid cc dst T Z F Y I L Hp Hc. rewrite C90_eit by exact T.
  destruct (C49_recovered m (fit_eit t) pid cc dst (P_wide2.range_eit t T Z) (P_wide2.fits_eit _ t F) I) as (ss & S & _ & R).
  - unfold fit_eit. cbn [eit_items]. rewrite map_length. exact L.
  - refine (P_wide2.map_Forall _ _ _ _ _ Y). intros i Hi. exact Hi.
  - exact Hp.
  - exact Hc.
  - exists ss. split; [exact S|exact R].
Qed.
Print Assumptions C90_pf_received.
Theorem C90_schedule_received : forall m t pid cc dst cc' out, eit_typed t -> Forall (fun i => eiti_start i < MJD_END /\ loop_sized (eiti_descs i)) (eit_items t) ->
  eit_fits (N.to_nat 4098) t -> Forall (fun i => loop_exact (fit_loop (eiti_descs i))) (eit_items t) ->
  0x50 <= eit_table t <= 0x6F -> (0 < length (eit_items t) < N.to_nat 504)%nat -> pid < 8192 -> cc < 16 ->
  eit_demux m t pid cc dst = Ok (cc', out) -> exists ps, out = dst ++ concat ps /\
  forall m' p old, exists q tb, base t <= tb < base t + 16 /\
    receive m' (eit_parse m') p old ps = Ok (q, eit_add old (mkEit tb (eit_version t mod 32) (eit_pnr t) (eit_tsid t) (eit_onid t) (map fit_event (eit_items t)))).
Proof.
  intros m t pid cc dst cc' out T Z F Y I L Hp Hc E. rewrite C90_eit in E by exact T.
  destruct (eit_items t) as [|first items] eqn:EI; [cbn [length] in L; lia|]. rewrite <- EI in *.
  apply (C50_lossless m (fit_eit t) (fit_event first) (map fit_event items) pid cc dst cc' out); [|exact Hp|exact Hc| | |exact E].
  - split; [exact (P_wide2.range_eit t T Z)|]. split; [unfold fit_eit; cbn [eit_items]; rewrite EI; reflexivity|]. split; [exact (P_wide2.fits_eit _ t F)|exact I].
  - unfold fit_eit. cbn [eit_items]. rewrite map_length. apply L.
  - refine (P_wide2.map_Forall _ _ _ _ _ Y). intros i Hi. exact Hi.
Qed.
Print Assumptions C90_schedule_received.
Theorem C90_tot_received : forall m t pid cc dst, tot_typed t -> tot_time t < MJD_END -> loop_sized (tot_descs t) -> (length (wire (tot_descs t)) <= N.to_nat 4084)%nat ->
  loop_exact (fit_loop (tot_descs t)) -> pid < 8192 -> cc < 16 ->
  exists ss, sends (tot_demux m t pid cc dst) pid cc dst ss /\
  forall m' p old, exists q, receive m' (tot_parse m') p old (stream pid cc ss) = Ok (q, tot_add old (fit_tot t)).
Proof.
  intros m t pid cc dst T S Z L X Hp Hc. rewrite C90_tot by exact T. exists [tot_bytes (fit_tot t)].
  destruct (C52_tot m (fit_tot t) pid cc dst S (P_wide2.fit_loop_ok _ (proj2 T) Z)) as [A B]; [unfold fit_tot; cbn [tot_descs]; rewrite P_wide2.fit_wire_len; exact L|exact Hp|exact Hc|].
  split; [exact A|exact (B X)].
Qed.
Print Assumptions C90_tot_received.

(** ** a value that is too large does not only lose its upper bits: it changes another field *)
Definition plain (pf ca : N) : sdt := mkSdt 0x42 0 1 1 [mkSdtI 7 0 pf 0 ca []].
Theorem C90_alone_refuted : exists t, sdt_typed t /\ exists ss, sends (sdt_demux Debug t 17 0 []) 17 0 [] ss /\
  forall m' p, exists q u, receive m' (sdt_parse m') p sdt_default (stream 17 0 ss) = Ok (q, u) /\
    map sdti_sched (sdt_items t) = [0] /\ map sdti_sched (sdt_items u) = [1] /\
    map sdti_status (sdt_items t) = [0] /\ map sdti_status (sdt_items u) = [2].
Proof.
  assert (T : sdt_typed (plain 2 4)) by (repeat split; repeat constructor).
  exists (plain 2 4). split; [exact T|].
  destruct (C90_sdt_received Debug (plain 2 4) 17 0 [] T) as (ss & S & R).
  - constructor; [|constructor]. split; [constructor|vm_compute; lia].
  - constructor; [vm_compute; lia|constructor].
  - constructor; [constructor|constructor].
  - left. reflexivity.
  - reflexivity.
  - reflexivity.
  - exists ss. split; [exact S|]. intros m' p. destruct (R m' p) as [q E]. exists q. eexists. split; [exact E|]. repeat split.
Qed.
Print Assumptions C90_alone_refuted.

(** a PMT whose pids have 16 bits and whose version has 8, with a bit rate of 32 bits, comes back cut *)
Definition ex_wide : pmt := mkPmt 0x45 100 0xE100 [] [mkPmtI 2 0x4101 [D0E (mk0E 0x80000123); D43 (mk43 115 7 0 5 0 0 0 27500 3)]].
Example C90_ex : fit_pmt ex_wide = mkPmt 5 100 0x100 [] [mkPmtI 2 0x101 [D0E (mk0E 0x123); D43 (mk43 110 6 1 1 0 0 0 27500 3)]] /\
  round (pmt_demux Debug ex_wide) (pmt_parse Debug) pmt_default 100 = Some (1%nat, fit_pmt ex_wide).
Proof. split; vm_compute; reflexivity. Qed.

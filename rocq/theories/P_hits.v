(** Proofs: tables sent on one PID of which packets are lost and packets are hit by bit errors. *)
From Coq Require Import ZifyBool.
From Verif Require Import Prelude Layout Facts Facts2 S_ts S_crc S_utils S_psi M_ts M_psi M_drive M_recv M_desc S_desc M_tables S_tables
  M_reader S_reader M_system S_system P_ts W_ts P_psi P_mux P_mux2 P_sys2 P_eit P_eit2 P_eit3 P_eit5 P_reader P_sys P_tab P_tab2 P_tab3 P_tab4 P_tab5 P_tot P_sect P_mux3 P_desc W_tables W_eit W_sys
  S_loss P_packed P_loss S_noise P_noise M_multi S_multi P_multi S_lossy P_lossy S_hits.
From Verif Require P_guide P_distinct P_tell P_desc2.

(** ** every section has a right CRC or 8 bytes *)
Definition crc_short (s : list N) : Prop := crc_spec s = 0 \/ length s = 8%nat.
Lemma ok_crc ss : Forall section_ok ss -> Forall framed ss /\ Forall crc_short ss.
Proof. intros K. split; [apply ok_framed; exact K|]. eapply Forall_impl; [|exact K]. intros s (_ & _ & _ & C). left. exact C. Qed.
Lemma send_crc m t pid cc r : sendable t -> pid < 8192 -> cc < 16 -> send m t pid cc [] = Ok r ->
  exists ss, (Forall framed ss /\ Forall crc_short ss) /\ r = (next_cc pid cc ss, concat (stream pid cc ss)).
Proof.
  intros S Hp Hc D. destruct t as [t|t|t|t|t|t|t]; cbn [send sendable] in *.
  - destruct S as (H & L). destruct (pat_demux_spec m t pid cc [] H Hp Hc) as (E & K & _). rewrite E in D. eexists. split; [|symmetry; apply P_distinct.ok_inj; exact D].
    apply ok_crc. constructor; [exact K|constructor].
  - destruct S as (H & F & _). destruct (pmt_demux_spec m t pid cc [] H F Hp Hc) as (g0 & gs & _ & _ & E). cbv zeta in E. destruct E as [E K]. rewrite E in D.
    eexists. split; [|symmetry; apply P_distinct.ok_inj; exact D]. apply ok_crc. exact K.
  - destruct S as (H & F & _ & _ & T). destruct (nit_demux_spec m t pid cc [] H F Hp Hc) as (g0 & gs & _ & _ & E). cbv zeta in E. destruct E as [E K]. rewrite E in D.
    eexists. split; [|symmetry; apply P_distinct.ok_inj; exact D]. apply ok_crc. exact K.
  - destruct S as (H & F & _ & T). destruct (sdt_demux_spec m t pid cc [] H F Hp Hc) as (g0 & gs & _ & _ & E). cbv zeta in E. destruct E as [E K]. rewrite E in D.
    eexists. split; [|symmetry; apply P_distinct.ok_inj; exact D]. apply ok_crc. exact K.
  - destruct S as [(H & F & X & T & L1 & L2)|(H & F & X & T & L)].
    + destruct (eit_pf_demux m t pid cc [] H F T L2 Hp Hc) as [E K]. rewrite E in D. eexists. split; [|symmetry; apply P_distinct.ok_inj; exact D]. apply ok_crc. exact K.
    + destruct (eit_items t) as [|first items] eqn:E; [cbn in L; lia|].
      destruct (eit_demux_schedule m t first items pid cc [] H E F T Hp Hc) as [D' K].
      destruct (eit_plan m t first items) as [[lt l]| |] eqn:P; try congruence. specialize (K lt l eq_refl). cbv zeta in D'.
      rewrite D' in D. eexists. split; [|symmetry; apply P_distinct.ok_inj; exact D]. apply ok_crc. exact K.
  - rewrite (tdt_demux_spec m t pid cc [] S Hp Hc) in D. exists [tdt_bytes t]. split; [|symmetry; apply P_distinct.ok_inj; exact D].
    destruct (tdt_facts t S) as (L & B & Ls & F & _). split; (constructor; [|constructor]); [split; [exact B|congruence]|right; exact L].
  - destruct S as (H1 & H2 & H3 & H4). destruct (tot_demux_spec m t pid cc [] H1 H2 H3 Hp Hc) as (E & K). rewrite E in D. exists [tot_bytes t].
    split; [|symmetry; apply P_distinct.ok_inj; exact D]. apply ok_crc. constructor; [exact K|constructor].
Qed.
Lemma made_crc m t pid cc ss : sendable t -> pid < 8192 -> cc < 16 -> Forall framed ss -> send m t pid cc [] = Ok (next_cc pid cc ss, concat (stream pid cc ss)) -> Forall crc_short ss.
Proof.
  intros S Hp Hc F D. destruct (send_crc m t pid cc _ S Hp Hc D) as (ss' & [F' C] & E). injection E as _ E. apply P_tell.same_sections in E; [|assumption..]. subst ss'. exact C.
Qed.

(** ** runs *)
Lemma runs_map {A B} (h : list N * A -> B) (l : list (list N * A)) : runs (map (fun x => (fst x, h x)) l) = map (map (fun x => (fst x, h x))) (runs l).
Proof.
  induction l as [|x l IH]; [reflexivity|]. cbn [map runs]. rewrite IH. destruct (runs l) as [|[|y g] gs]; [reflexivity|reflexivity|].
  cbn [map fst]. destruct (flag (fst y) 9); reflexivity.
Qed.
Lemma is_run_fst {A B} (a : list (list N * A)) (b : list (list N * B)) : map fst a = map fst b -> is_run a -> is_run b.
Proof.
  intros E (x & r & -> & F & R). destruct b as [|y b]; [discriminate|]. cbn [map] in E. injection E as E1 E2. exists y, b. split; [reflexivity|]. split; [congruence|].
  clear - R E2. revert b E2. induction R as [|z r Z _ IH]; intros [|w b] E; try discriminate; [constructor|]. cbn [map] in E. injection E as E1 E2. constructor; [congruence|apply IH; exact E2].
Qed.
Lemma good_marks_fst g : map fst (good_marks g) = map fst g.
Proof. unfold good_marks, come_marks. destruct (list_eq_dec _ _ _); rewrite map_map; reflexivity. Qed.
Lemma come_marks_fst g : map fst (come_marks g) = map fst g.
Proof. unfold come_marks. rewrite map_map. reflexivity. Qed.
Lemma good_fst l : map fst (good l) = map fst l.
Proof.
  unfold good. rewrite <- (runs_concat l) at 2. rewrite !concat_map, map_map. f_equal. apply map_ext. intros g. apply good_marks_fst.
Qed.
Lemma come_runs l : runs (come_marks l) = map come_marks (runs l).
Proof. unfold come_marks. apply (runs_map some_way). Qed.

(** the packets of a table *)
Lemma table_hits pid ss cc l : Forall framed ss -> pid < 8192 -> cc < 16 -> map fst l = stream pid cc ss ->
  exists xs, transmitted xs /\ map snd xs = ss /\ enc (on_the_way xs) = good l /\ counted ((cc + 15) mod 16) (sent_packets (on_the_way xs)) /\
    last (map k_cc (sent_packets (on_the_way xs))) ((cc + 15) mod 16) = (next_cc pid cc ss + 15) mod 16 /\
    Forall2 (fun g y => good_marks g = enc (fst y)) (runs l) xs /\ Forall (fun k => k_af k = None) (sent_packets (on_the_way xs)).
Proof.
  intros F Hp Hc E. destruct (stream_marks pid ss F cc (come_marks l) Hc ltac:(rewrite come_marks_fst; exact E)) as (x0 & T0 & _ & E0 & C0 & _).
  pose proof (sections_runs x0 T0 _ C0) as R0. rewrite <- (runs_sections x0 T0 _ C0), E0, come_runs in R0.
  assert (R1 : Forall is_run (map good_marks (runs l))).
  { clear - R0. induction (runs l) as [|g gs IH]; [constructor|]. cbn [map] in *. inversion R0; subst. constructor; [|auto]. eapply is_run_fst; [|eassumption]. rewrite come_marks_fst, good_marks_fst. reflexivity. }
  destruct (stream_marks pid ss F cc (good l) Hc ltac:(rewrite good_fst; exact E)) as (x1 & T1 & M1 & E1 & C1 & L1 & _).
  exists x1. do 5 (split; [assumption|]). split.
  - pose proof (runs_sections x1 T1 _ C1) as R. rewrite E1 in R. unfold good in R. rewrite runs_spec in R by exact R1. clear - R. revert x1 R.
    induction (runs l) as [|g gs IH]; intros [|y x1] R; try discriminate; [constructor|]. cbn [map] in R. injection R as Ra Rb. constructor; [exact Ra|apply IH; exact Rb].
  - assert (W : running pid cc (map fst (good l))) by (rewrite good_fst, E; apply stream_running; [exact Hp| |exact Hc]; eapply Forall_impl; [|exact F]; intros s X; apply X).
    rewrite <- E1 in W. clear - W. generalize dependent cc. induction (on_the_way x1) as [|[k b] y IH]; intros cc W; [constructor|]. cbn [enc map fst snd sent_packets running] in *.
    destruct W as (_ & _ & _ & W & _ & _ & W'). constructor; [|exact (IH _ W')]. unfold encode in W. destruct (k_af k); [|reflexivity]. exfalso. rewrite f_af in W. discriminate W.
Qed.

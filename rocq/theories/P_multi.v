(** Proofs: tables of all kinds on several PIDs in one buffer. *)
From Coq Require Import ZifyBool.
From Verif Require Import Prelude Layout Facts Facts2 S_ts S_crc S_utils S_psi M_ts M_psi M_drive M_recv M_desc S_desc M_tables S_tables
  M_reader S_reader M_system S_system P_sys2 P_eit P_eit2 P_eit3 P_eit5 P_reader P_sys P_tab P_tab2 P_tab3 P_tab4 P_tab5 P_tot P_sect P_mux3 P_desc W_tables W_eit W_sys M_multi S_multi.
From Verif Require P_guide P_distinct P_frame.

(** ** packets *)
Lemma running_app pid a b : forall cc, running pid cc a -> running pid ((cc + N.of_nat (length a)) mod 16) b -> cc < 16 -> running pid cc (a ++ b).
Proof.
  induction a as [|x a IH]; intros cc A B C; cbn [app length] in *.
  - replace ((cc + N.of_nat 0) mod 16) with cc in B by dlia. exact B.
  - cbn [running] in *. destruct A as (A1 & A2 & A3 & A4 & A5 & A6 & A7). repeat (split; [assumption|]). apply IH; [exact A7| |apply N.mod_lt; discriminate].
    replace (((cc + 1) mod 16 + N.of_nat (length a)) mod 16) with ((cc + N.of_nat (S (length a))) mod 16) by dlia. exact B.
Qed.
Lemma number_running pid ps : pid < 8192 -> Forall (fun c => length c = 184%nat) ps -> forall cc first, cc < 16 -> running pid cc (number_packets pid cc first ps).
Proof.
  intros Hp. induction 1 as [|c ps L _ IH]; intros cc first Hc; [exact I|]. cbn [number_packets running].
  split; [unfold ts_header; rewrite app_length, layout_length by reflexivity; rewrite L; reflexivity|].
  assert (B : (if first then 1 else 0) < 2) by (destruct first; reflexivity).
  unfold ts_header. do 5 (split; [fv|]). apply IH. apply N.mod_lt. discriminate.
Qed.

Lemma stream_running pid ss : pid < 8192 -> Forall bytes ss -> forall cc, cc < 16 -> running pid cc (stream pid cc ss).
Proof.
  intros Hp. induction 1 as [|s ss Hb _ IH]; intros cc Hc; [exact I|]. rewrite stream_cons. apply running_app; [|apply IH; apply N.mod_lt; discriminate|exact Hc].
  unfold section_packets. apply number_running; [exact Hp| |exact Hc]. destruct (section_chunks s Hb) as (c & ps & st & Ec & Hps & Hbc & Hlc & _). rewrite Ec.
  constructor; [cbn [length]; lia|]. eapply Forall_impl; [|exact Hps]. intros x X. apply X.
Qed.
Lemma running_on pid l : forall cc, running pid cc l -> filter (on pid) l = l.
Proof.
  induction l as [|x l IH]; intros cc R; [reflexivity|]. destruct R as (_ & _ & R & _ & _ & _ & R'). cbn [filter]. unfold on at 1. rewrite R, N.eqb_refl. f_equal. exact (IH _ R').
Qed.
Lemma running_off pid pid' l : pid <> pid' -> forall cc, running pid cc l -> filter (on pid') l = [].
Proof.
  intros D. induction l as [|x l IH]; intros cc R; [reflexivity|]. destruct R as (_ & _ & R & _ & _ & _ & R'). cbn [filter]. unfold on at 1. rewrite R.
  destruct (N.eqb_spec pid pid'); [congruence|]. exact (IH _ R').
Qed.
Lemma running_188 pid l : forall cc, running pid cc l -> Forall (fun x => length x = 188%nat) l.
Proof. induction l as [|x l IH]; intros cc R; constructor; [apply R|]. eapply IH. apply R. Qed.

(** ** the sections of a table carry an id of its kind *)
Definition id_tdt (b : N) : bool := b =? 0x70.
Definition ids (t : table) : N -> bool :=
  match t with TPat _ => id_pat | TPmt _ => id_pmt | TNit _ => id_nit | TSdt _ => id_sdt | TEit _ => id_eit | TTdt _ => id_tdt | TTot _ => id_tot end.
Lemma ok_framed ss : Forall section_ok ss -> Forall framed ss.
Proof. apply Forall_impl. intros s (A & B & _). split; assumption. Qed.
Lemma numbered_all {A} (f : nat -> A -> list N) (P : list N -> Prop) : (forall i g, P (f i g)) -> forall l i, Forall P (numbered f i l).
Proof. intros H. induction l as [|x l IH]; intros i; cbn [numbered]; constructor; auto. Qed.
Definition labelled (t : table) (ss : list (list N)) : Prop := Forall framed ss /\ Forall (fun s => ids t (field s 0 8) = true) ss.
Lemma send_sections m t pid cc r : sendable t -> pid < 8192 -> cc < 16 -> send m t pid cc [] = Ok r ->
  exists ss, labelled t ss /\ r = (next_cc pid cc ss, concat (stream pid cc ss)).
Proof.
  intros S Hp Hc D. destruct t as [t|t|t|t|t|t|t]; cbn [send sendable] in *.
  - destruct S as (H & L). destruct (pat_demux_spec m t pid cc [] H Hp Hc) as (E & K & _). rewrite E in D. eexists. split; [|symmetry; apply P_distinct.ok_inj; exact D].
    split; [apply ok_framed; constructor; [exact K|constructor]|]. constructor; [|constructor]. cbn [ids]. pose proof H as (H1 & H2 & H3).
    unfold pat_section. rewrite (proj1 (section_head 0 _ _ _ _ _ _ eq_refl H2 H1)). reflexivity.
  - destruct S as (H & F & _). destruct (pmt_demux_spec m t pid cc [] H F Hp Hc) as (g0 & gs & _ & _ & E). cbv zeta in E. destruct E as [E K]. rewrite E in D.
    eexists. split; [|symmetry; apply P_distinct.ok_inj; exact D]. split; [apply ok_framed; exact K|]. apply numbered_all. intros i g. rewrite pmt_tables by exact H. reflexivity.
  - destruct S as (H & F & _ & _ & T). destruct (nit_demux_spec m t pid cc [] H F Hp Hc) as (g0 & gs & _ & _ & E). cbv zeta in E. destruct E as [E K]. rewrite E in D.
    eexists. split; [|symmetry; apply P_distinct.ok_inj; exact D]. split; [apply ok_framed; exact K|]. apply numbered_all. intros i g. rewrite nit_tables by exact H. destruct T as [-> | ->]; reflexivity.
  - destruct S as (H & F & _ & T). destruct (sdt_demux_spec m t pid cc [] H F Hp Hc) as (g0 & gs & _ & _ & E). cbv zeta in E. destruct E as [E K]. rewrite E in D.
    eexists. split; [|symmetry; apply P_distinct.ok_inj; exact D]. split; [apply ok_framed; exact K|]. apply numbered_all. intros i g. rewrite sdt_tables by exact H. destruct T as [-> | ->]; reflexivity.
  - destruct S as [(H & F & X & T & L1 & L2)|(H & F & X & T & L)].
    + destruct (eit_pf_demux m t pid cc [] H F T L2 Hp Hc) as [E K]. rewrite E in D. eexists. split; [|symmetry; apply P_distinct.ok_inj; exact D].
      split; [apply ok_framed; exact K|]. apply numbered_all. intros i g. rewrite eit_tables; [|exact H|destruct T as [-> | ->]; reflexivity]. destruct T as [-> | ->]; reflexivity.
    + destruct (eit_items t) as [|first items] eqn:E; [cbn in L; lia|].
      destruct (eit_demux_schedule m t first items pid cc [] H E F T Hp Hc) as [D' K].
      destruct (eit_plan m t first items) as [[lt l]| |] eqn:P; try congruence. specialize (K lt l eq_refl). cbv zeta in D'.
      destruct (sched_plan m t first items pid cc [] H E F T Hp Hc lt l P) as (D1 & D2 & D3 & D4 & D5 & D6 & D7).
      destruct (seen_few t _ _ _ T (D7 ltac:(rewrite E; apply L))) as (_ & B & V).
      rewrite D' in D. eexists. split; [|symmetry; apply P_distinct.ok_inj; exact D]. split; [apply ok_framed; exact K|].
      apply Forall_map. eapply Forall_impl; [|exact B]. intros s Bs. cbn beta in Bs. cbn [ids]. assert (Q : 0x50 <= slot_table s <= 0x6F) by (clear - T Bs; dlia).
      destruct s as [[[[[tb n] a] b] c] g]. unfold slot_section. cbn [slot_table] in Q. rewrite eit_tables; [|exact H|clear - Q; lia]. unfold id_eit. clear - Q. lia.
  - rewrite (tdt_demux_spec m t pid cc [] S Hp Hc) in D. exists [tdt_bytes t]. split; [|symmetry; apply P_distinct.ok_inj; exact D].
    destruct (tdt_facts t S) as (L & B & Ls & F & _). split; (constructor; [|constructor]); [split; [exact B|congruence]|]. cbn [ids]. rewrite F. reflexivity.
  - destruct S as (H1 & H2 & H3 & H4). destruct (tot_demux_spec m t pid cc [] H1 H2 H3 Hp Hc) as (E & K). rewrite E in D. exists [tot_bytes t].
    split; [|symmetry; apply P_distinct.ok_inj; exact D]. split; [apply ok_framed; constructor; [exact K|constructor]|]. constructor; [|constructor].
    destruct (tot_app t) as (h & c & _ & _ & _ & F). cbn [ids]. rewrite F. reflexivity.
Qed.

(** ** receivers *)
(** a receiver of another kind hears nothing *)
Ltac deaf lem := intros F Z pid cc p old Hc; destruct (stream_carried pid _ F cc Hc) as (ls & -> & C & _);
  apply (lem _ p old ls _ [] C F); match goal with |- Forall2 _ ?h _ => replace h with (@nil (list N)); [constructor|] end;
  clear - Z; induction Z as [|s ss Zs _ IH]; [reflexivity|]; unfold heard in *; cbn [filter]; rewrite Zs, andb_false_r, ?andb_false_l; exact IH.
Definition deaf_to {T} (m : mode) (parse : T -> psi -> res T) (ss : list (list N)) : Prop :=
  forall pid cc p old, cc < 16 -> exists q, receive m parse p old (stream pid cc ss) = Ok (q, old).
Lemma deaf_pat m ss : Forall framed ss -> Forall (fun s => id_pat (field s 0 8) = false) ss -> deaf_to m (pat_parse m) ss. Proof. deaf pat_mixed. Qed.
Lemma deaf_pmt m ss : Forall framed ss -> Forall (fun s => id_pmt (field s 0 8) = false) ss -> deaf_to m (pmt_parse m) ss. Proof. deaf pmt_mixed. Qed.
Lemma deaf_nit m ss : Forall framed ss -> Forall (fun s => id_nit (field s 0 8) = false) ss -> deaf_to m (nit_parse m) ss. Proof. deaf nit_mixed. Qed.
Lemma deaf_sdt m ss : Forall framed ss -> Forall (fun s => id_sdt (field s 0 8) = false) ss -> deaf_to m (sdt_parse m) ss. Proof. deaf sdt_mixed. Qed.
Lemma deaf_eit m ss : Forall framed ss -> Forall (fun s => id_eit (field s 0 8) = false) ss -> deaf_to m (eit_parse m) ss. Proof. deaf eit_mixed. Qed.
Lemma deaf_tot m ss : Forall framed ss -> Forall (fun s => id_tot (field s 0 8) = false) ss -> deaf_to m (tot_parse m) ss. Proof. deaf tot_mixed. Qed.
Lemma deaf_tdt m ss : Forall framed ss -> Forall (fun s => id_tdt (field s 0 8) = false) ss -> deaf_to m (tdt_parse m) ss.
Proof.
  intros F Z pid cc p old Hc. destruct (stream_carried pid _ F cc Hc) as (ls & -> & C & A). apply (tdt_mixed _ p old ls _ [] C F A).
  match goal with |- Forall2 _ ?h _ => replace h with (@nil (list N)); [constructor|] end.
  clear - Z; induction Z as [|s ss Zs _ IH]; [reflexivity|]; unfold heard_tdt, id_tdt in *; cbn [filter]; rewrite Zs, andb_false_r; exact IH.
Qed.
Lemma other (t : table) (f : N -> bool) ss : (forall b, ids t b = true -> f b = false) -> labelled t ss -> Forall (fun s => f (field s 0 8) = false) ss.
Proof. intros H [_ L]. eapply Forall_impl; [|exact L]. intros s. apply H. Qed.

(** what hearing one table does *)
Definition pat_step (old : pat) (t : table) (u : pat) : Prop := match t with TPat t => u = pat_add old t | _ => u = old end.
Definition pmt_step (old : pmt) (t : table) (u : pmt) : Prop := match t with TPmt t => u = pmt_add old t | _ => u = old end.
Definition nit_step (old : nit) (t : table) (u : nit) : Prop := match t with TNit t => u = nit_add old t | _ => u = old end.
Definition sdt_step (old : sdt) (t : table) (u : sdt) : Prop := match t with TSdt t => u = sdt_add old t | _ => u = old end.
Definition tot_step (old : tot) (t : table) (u : tot) : Prop := match t with TTot t => u = tot_add old t | _ => u = old end.
Definition tdt_step (old : N) (t : table) (u : N) : Prop := match t with TTdt t => u = t | _ => u = old end.
Definition eit_step (old : eit) (t : table) (u : eit) : Prop := match t with TEit t => exists tb, kind_of tb t /\ u = eit_add old (P_guide.relabel tb t) | _ => u = old end.
Definition hears {T} (parse : mode -> T -> psi -> res T) (step : T -> table -> T -> Prop) : Prop :=
  forall m t pid cc ss, sendable t -> pid < 8192 -> cc < 16 -> labelled t ss -> send m t pid cc [] = Ok (next_cc pid cc ss, concat (stream pid cc ss)) ->
  forall m' p old, exists q u, receive m' (parse m') p old (stream pid cc ss) = Ok (q, u) /\ step old t u.
Lemma same_packets pid cc ss pks : Forall framed ss -> cc < 16 -> concat (stream pid cc ss) = concat pks -> Forall (fun x => length x = 188%nat) pks -> stream pid cc ss = pks.
Proof. intros F C E L. apply concat_inj; [apply stream_188; [|exact C]|exact L|exact E]. eapply Forall_impl; [|exact F]. intros s X. apply X. Qed.
Ltac own lem m t S pid cc ss Hp Hc L D m' p old := destruct (lem m t S pid cc (next_cc pid cc ss) (concat (stream pid cc ss)) Hp Hc D) as (pks & E & P & R);
    rewrite (same_packets pid cc ss pks (proj1 L) Hc E P); let q := fresh "q" in let Q := fresh in destruct (R m' p old) as [q Q]; exists q; eexists; split; [exact Q|reflexivity].
Ltac not_own deaf t pid cc ss Hc L m' p old := destruct (deaf m' ss (proj1 L)) with (pid := pid) (cc := cc) (p := p) (old := old) as [q Q];
    [refine (other t _ ss _ L); let b := fresh in intros b; cbn [ids]; unfold id_pat, id_pmt, id_nit, id_sdt, id_eit, id_tot, id_tdt; lia|exact Hc|exists q; eexists; split; [exact Q|reflexivity]].
Lemma pat_hears : hears pat_parse pat_step.
Proof.
  intros m t pid cc ss S Hp Hc L D m' p old. destruct t as [t|t|t|t|t|t|t]; cbn [send pat_step] in *.
  - own W_sys.pat_sends m t S pid cc ss Hp Hc L D m' p old.
  - not_own deaf_pat (TPmt t) pid cc ss Hc L m' p old.
  - not_own deaf_pat (TNit t) pid cc ss Hc L m' p old.
  - not_own deaf_pat (TSdt t) pid cc ss Hc L m' p old.
  - not_own deaf_pat (TEit t) pid cc ss Hc L m' p old.
  - not_own deaf_pat (TTdt t) pid cc ss Hc L m' p old.
  - not_own deaf_pat (TTot t) pid cc ss Hc L m' p old.
Qed.
Lemma pmt_hears : hears pmt_parse pmt_step.
Proof.
  intros m t pid cc ss S Hp Hc L D m' p old. destruct t as [t|t|t|t|t|t|t]; cbn [send pmt_step] in *.
  - not_own deaf_pmt (TPat t) pid cc ss Hc L m' p old.
  - own W_sys.pmt_sends m t S pid cc ss Hp Hc L D m' p old.
  - not_own deaf_pmt (TNit t) pid cc ss Hc L m' p old.
  - not_own deaf_pmt (TSdt t) pid cc ss Hc L m' p old.
  - not_own deaf_pmt (TEit t) pid cc ss Hc L m' p old.
  - not_own deaf_pmt (TTdt t) pid cc ss Hc L m' p old.
  - not_own deaf_pmt (TTot t) pid cc ss Hc L m' p old.
Qed.
Lemma nit_hears : hears nit_parse nit_step.
Proof.
  intros m t pid cc ss S Hp Hc L D m' p old. destruct t as [t|t|t|t|t|t|t]; cbn [send nit_step] in *.
  - not_own deaf_nit (TPat t) pid cc ss Hc L m' p old.
  - not_own deaf_nit (TPmt t) pid cc ss Hc L m' p old.
  - own W_sys.nit_sends m t S pid cc ss Hp Hc L D m' p old.
  - not_own deaf_nit (TSdt t) pid cc ss Hc L m' p old.
  - not_own deaf_nit (TEit t) pid cc ss Hc L m' p old.
  - not_own deaf_nit (TTdt t) pid cc ss Hc L m' p old.
  - not_own deaf_nit (TTot t) pid cc ss Hc L m' p old.
Qed.
Lemma sdt_hears : hears sdt_parse sdt_step.
Proof.
  intros m t pid cc ss S Hp Hc L D m' p old. destruct t as [t|t|t|t|t|t|t]; cbn [send sdt_step] in *.
  - not_own deaf_sdt (TPat t) pid cc ss Hc L m' p old.
  - not_own deaf_sdt (TPmt t) pid cc ss Hc L m' p old.
  - not_own deaf_sdt (TNit t) pid cc ss Hc L m' p old.
  - own W_sys.sdt_sends m t S pid cc ss Hp Hc L D m' p old.
  - not_own deaf_sdt (TEit t) pid cc ss Hc L m' p old.
  - not_own deaf_sdt (TTdt t) pid cc ss Hc L m' p old.
  - not_own deaf_sdt (TTot t) pid cc ss Hc L m' p old.
Qed.
Lemma eit_hears : hears eit_parse eit_step.
Proof.
  intros m t pid cc ss S Hp Hc L D m' p old. destruct t as [t|t|t|t|t|t|t]; cbn [send eit_step] in *.
  - not_own deaf_eit (TPat t) pid cc ss Hc L m' p old.
  - not_own deaf_eit (TPmt t) pid cc ss Hc L m' p old.
  - not_own deaf_eit (TNit t) pid cc ss Hc L m' p old.
  - not_own deaf_eit (TSdt t) pid cc ss Hc L m' p old.
  - destruct (P_guide.guide_sends m t pid cc _ _ S Hp Hc D) as (pks & E & P & R). rewrite (same_packets pid cc ss pks (proj1 L) Hc E P).
    destruct (R m' p old) as (q & tb & K & Q). exists q. eexists. split; [exact Q|]. exists tb. split; [exact K|reflexivity].
  - not_own deaf_eit (TTdt t) pid cc ss Hc L m' p old.
  - not_own deaf_eit (TTot t) pid cc ss Hc L m' p old.
Qed.
Lemma tdt_hears : hears tdt_parse tdt_step.
Proof.
  intros m t pid cc ss S Hp Hc L D m' p old. destruct t as [t|t|t|t|t|t|t]; cbn [send tdt_step] in *.
  - not_own deaf_tdt (TPat t) pid cc ss Hc L m' p old.
  - not_own deaf_tdt (TPmt t) pid cc ss Hc L m' p old.
  - not_own deaf_tdt (TNit t) pid cc ss Hc L m' p old.
  - not_own deaf_tdt (TSdt t) pid cc ss Hc L m' p old.
  - not_own deaf_tdt (TEit t) pid cc ss Hc L m' p old.
  - own W_sys.tdt_sends m t S pid cc ss Hp Hc L D m' p old.
  - not_own deaf_tdt (TTot t) pid cc ss Hc L m' p old.
Qed.
Lemma tot_hears : hears tot_parse tot_step.
Proof.
  intros m t pid cc ss S Hp Hc L D m' p old. destruct t as [t|t|t|t|t|t|t]; cbn [send tot_step] in *.
  - not_own deaf_tot (TPat t) pid cc ss Hc L m' p old.
  - not_own deaf_tot (TPmt t) pid cc ss Hc L m' p old.
  - not_own deaf_tot (TNit t) pid cc ss Hc L m' p old.
  - not_own deaf_tot (TSdt t) pid cc ss Hc L m' p old.
  - not_own deaf_tot (TEit t) pid cc ss Hc L m' p old.
  - not_own deaf_tot (TTdt t) pid cc ss Hc L m' p old.
  - own W_sys.tot_sends m t S pid cc ss Hp Hc L D m' p old.
Qed.

(** ** a whole multiplex *)
Lemma send_behind m t pid cc dst : send m t pid cc dst = P_frame.after dst (send m t pid cc []).
Proof.
  destruct t; cbn [send]; [apply P_frame.fr_pat|apply P_frame.fr_pmt|apply P_frame.fr_nit|apply P_frame.fr_sdt|apply P_frame.fr_eit|apply P_frame.fr_tdt|apply P_frame.fr_tot].
Qed.
(** the jobs one after the other: the sections of each *)
Inductive made (m : mode) : (N -> N) -> list (N * table) -> list (list N) -> (N -> N) -> Prop :=
| made_nil c : made m c [] [] c
| made_cons c pid t r ss pks c' : sendable t -> pid < 8192 -> c pid < 16 -> labelled t ss ->
    send m t pid (c pid) [] = Ok (next_cc pid (c pid) ss, concat (stream pid (c pid) ss)) ->
    made m (put c pid (next_cc pid (c pid) ss)) r pks c' -> made m c ((pid, t) :: r) (stream pid (c pid) ss ++ pks) c'.
Lemma put_lt c pid cc : (forall p, c p < 16) -> cc < 16 -> forall p, put c pid cc p < 16.
Proof. intros H L p. unfold put. destruct (p =? pid); auto. Qed.
Lemma multi_made m jobs : jobs_ok jobs -> forall c dst c' out, (forall p, c p < 16) -> multiplex m jobs c dst = Ok (c', out) ->
  exists pks, out = dst ++ concat pks /\ made m c jobs pks c'.
Proof.
  induction 1 as [|[pid t] r [Hp S] _ IH]; intros c dst c' out Hc E; cbn [multiplex] in E.
  - injection E as <- <-. exists []. split; [symmetry; apply app_nil_r|constructor].
  - cbn [fst snd] in *. rewrite send_behind in E. destruct (send m t pid (c pid) []) as [r0| |] eqn:D; cbn [P_frame.after bind] in E; try discriminate.
    destruct (send_sections m t pid (c pid) r0 S Hp (Hc pid) D) as (ss & L & ->). cbn [P_frame.after bind] in E.
    destruct (IH _ _ _ _ (put_lt c pid _ Hc ltac:(apply N.mod_lt; discriminate)) E) as (pks & -> & M). exists (stream pid (c pid) ss ++ pks).
    split; [rewrite concat_app, app_assoc; reflexivity|]. constructor; auto.
Qed.
Lemma made_running m c jobs pks c' : made m c jobs pks c' -> (forall p, c p < 16) -> forall pid, running pid (c pid) (filter (on pid) pks) /\ c' pid = (c pid + N.of_nat (length (filter (on pid) pks))) mod 16.
Proof.
  induction 1 as [c|c pid t r ss pks c' S Hp Hc L D M IH]; intros C q.
  - cbn [filter running length]. split; [exact I|]. specialize (C q). clear - C. dlia.
  - assert (C' : forall p, put c pid (next_cc pid (c pid) ss) p < 16) by (apply put_lt; [exact C|apply N.mod_lt; discriminate]).
    assert (R : running pid (c pid) (stream pid (c pid) ss)) by (apply stream_running; [exact Hp| |exact Hc]; eapply Forall_impl; [|exact (proj1 L)]; intros s X; apply X).
    destruct (IH C' q) as [R' E']. rewrite filter_app, app_length. unfold put in R', E'. destruct (N.eqb_spec q pid) as [->|Ne].
    + rewrite (running_on pid _ _ R). unfold next_cc in R', E'. split; [apply running_app; assumption|]. rewrite E'. clear. dlia.
    + rewrite (running_off pid q _ ltac:(congruence) _ R). cbn [app length Nat.add]. split; assumption.
Qed.
Inductive steps {T} (step : T -> table -> T -> Prop) : T -> list table -> T -> Prop :=
| steps_nil t : steps step t [] t
| steps_cons a x b l c : step a x b -> steps step b l c -> steps step a (x :: l) c.
Lemma made_heard {T} (parse : mode -> T -> psi -> res T) step : hears parse step -> forall m c jobs pks c', made m c jobs pks c' ->
  forall m' pid p old, exists q u, receive m' (parse m') p old (filter (on pid) pks) = Ok (q, u) /\ steps step old (tables_on pid jobs) u.
Proof.
  intros H m c jobs pks c' M. induction M as [c|c pid t r ss pks c' S Hp Hc L D M IH]; intros m' q p old.
  - exists p, old. split; [reflexivity|constructor].
  - assert (R : running pid (c pid) (stream pid (c pid) ss)) by (apply stream_running; [exact Hp| |exact Hc]; eapply Forall_impl; [|exact (proj1 L)]; intros s X; apply X).
    rewrite filter_app. unfold tables_on. cbn [filter fst]. destruct (N.eqb_spec pid q) as [<-|Ne].
    + rewrite (running_on pid _ _ R). destruct (H m t pid (c pid) ss S Hp Hc L D m' p old) as (p1 & u1 & E1 & S1).
      destruct (IH m' pid p1 u1) as (p2 & u2 & E2 & S2). exists p2, u2. split; [rewrite receive_app, E1; exact E2|]. cbn [map snd]. econstructor; eassumption.
    + rewrite (running_off pid q _ Ne _ R). exact (IH m' q p old).
Qed.
Lemma made_188 m c jobs pks c' : made m c jobs pks c' -> Forall (fun x => length x = 188%nat) pks.
Proof.
  induction 1 as [|c pid t r ss pks c' S Hp Hc L D M IH]; [constructor|]. apply Forall_app. split; [|exact IH]. apply stream_188; [|exact Hc].
  eapply Forall_impl; [|exact (proj1 L)]. intros s X. apply X.
Qed.
Lemma pat_steps l : forall old u, steps pat_step old l u -> u = fold_left pat_add (pats l) old.
Proof.
  induction l as [|x l IH]; intros old u S; inversion S as [|? ? b ? ? A B]; subst; [reflexivity|]. rewrite (IH _ _ B). destruct x; cbn in A; subst b; reflexivity.
Qed.
Lemma pmt_steps l : forall old u, steps pmt_step old l u -> u = fold_left pmt_add (pmts l) old.
Proof.
  induction l as [|x l IH]; intros old u S; inversion S as [|? ? b ? ? A B]; subst; [reflexivity|]. rewrite (IH _ _ B). destruct x; cbn in A; subst b; reflexivity.
Qed.
Lemma nit_steps l : forall old u, steps nit_step old l u -> u = fold_left nit_add (nits l) old.
Proof.
  induction l as [|x l IH]; intros old u S; inversion S as [|? ? b ? ? A B]; subst; [reflexivity|]. rewrite (IH _ _ B). destruct x; cbn in A; subst b; reflexivity.
Qed.
Lemma sdt_steps l : forall old u, steps sdt_step old l u -> u = fold_left sdt_add (sdts l) old.
Proof.
  induction l as [|x l IH]; intros old u S; inversion S as [|? ? b ? ? A B]; subst; [reflexivity|]. rewrite (IH _ _ B). destruct x; cbn in A; subst b; reflexivity.
Qed.
Lemma tot_steps l : forall old u, steps tot_step old l u -> u = fold_left tot_add (tots l) old.
Proof.
  induction l as [|x l IH]; intros old u S; inversion S as [|? ? b ? ? A B]; subst; [reflexivity|]. rewrite (IH _ _ B). destruct x; cbn in A; subst b; reflexivity.
Qed.
Lemma tdt_steps l : forall old u, steps tdt_step old l u -> u = last (tdts l) old.
Proof.
  induction l as [|x l IH]; intros old u S; inversion S as [|? ? b ? ? A B]; subst; [reflexivity|]. rewrite (IH _ _ B).
  destruct x; cbn in A; subst b; try reflexivity. cbn [tdts flat_map app]. destruct (tdts l) as [|y r] eqn:E; unfold tdts in E; rewrite E; [reflexivity|]. change (last (t :: y :: r) old) with (last (y :: r) old). apply last_default.
Qed.
Lemma eit_steps l : forall old u, steps eit_step old l u -> guide_seen (eits l) old u.
Proof.
  induction l as [|x l IH]; intros old u S; inversion S as [|? ? b ? ? A B]; subst.
  - unfold guide_seen, kind_of. cbn [eits flat_map last]. rewrite app_nil_r. repeat split; try reflexivity. left. reflexivity.
  - specialize (IH _ _ B). destruct x; cbn [eit_step] in A; subst; try exact IH. destruct A as (tb & K & ->). unfold guide_seen in *. destruct IH as (G1 & G2 & G3 & G4 & G5 & G6).
    change (eits (TEit t :: l)) with (t :: eits l). cbn [flat_map]. rewrite app_assoc. destruct (eits l) as [|y r].
    { cbn [last] in *. repeat split; try assumption. unfold kind_of in *. cbn [eit_add P_guide.relabel eit_table] in G5. clear - K G5.
      destruct K as [->|[K1 K2]]; [exact G5|]. right. split; [exact K1|]. destruct G5 as [->|[_ G]]; congruence. }
    change (last (t :: y :: r) old) with (last (y :: r) old). rewrite (last_default r y (eit_add old (P_guide.relabel tb t)) old) in *. repeat split; assumption.
Qed.

(** ** the bytes as a stream *)
Lemma number_bytes pid ps : Forall bytes ps -> forall cc first, Forall bytes (number_packets pid cc first ps).
Proof. induction 1 as [|c ps B _ IH]; intros cc first; cbn [number_packets]; constructor; [apply bytes_app; split; [apply layout_bytes|exact B]|apply IH]. Qed.
Lemma stream_bytes pid ss : Forall bytes ss -> forall cc, Forall bytes (stream pid cc ss).
Proof.
  induction 1 as [|s ss Hb _ IH]; intros cc; [constructor|]. rewrite stream_cons. apply Forall_app. split; [|apply IH]. unfold section_packets. apply number_bytes.
  destruct (section_chunks s Hb) as (c & ps & st & Ec & Hps & Hbc & _). rewrite Ec. constructor; [apply bytes_cons; split; [lia|exact Hbc]|]. eapply Forall_impl; [|exact Hps]. intros x X. apply X.
Qed.
Lemma made_bytes m c jobs pks c' : made m c jobs pks c' -> bytes (concat pks).
Proof.
  induction 1 as [|c pid t r ss pks c' S Hp Hc L D M IH]; [apply bytes_nil|]. rewrite concat_app. apply bytes_app. split; [|exact IH].
  assert (F : Forall bytes (stream pid (c pid) ss)) by (apply stream_bytes; eapply Forall_impl; [|exact (proj1 L)]; intros s X; apply X).
  clear - F. induction F as [|x l B _ IH]; [apply bytes_nil|]. cbn [concat]. apply bytes_app. split; assumption.
Qed.
Lemma running_sync pid l : forall cc, running pid cc l -> Forall (fun x => length x = 188%nat /\ field x 0 8 = 0x47) l.
Proof. induction l as [|x l IH]; intros cc R; constructor; [split; apply R|]. eapply IH. apply R. Qed.
Lemma made_sync m c jobs pks c' : made m c jobs pks c' -> Forall (fun x => length x = 188%nat /\ field x 0 8 = 0x47) pks.
Proof.
  induction 1 as [|c pid t r ss pks c' S Hp Hc L D M IH]; [constructor|]. apply Forall_app. split; [|exact IH]. apply (running_sync pid _ (c pid)). apply stream_running; [exact Hp| |exact Hc].
  eapply Forall_impl; [|exact (proj1 L)]. intros s X. apply X.
Qed.
Lemma first_byte x : bytes x -> (1 <= length x)%nat -> field x 0 8 = 0x47 -> exists r, x = 0x47 :: r.
Proof.
  intros B L F. destruct x as [|b r]; [cbn in L; lia|]. exists r. f_equal. apply bytes_cons in B. destruct B as [B _].
  rewrite <- F. change (b = N_of_bits (bits_of 8 b)). rewrite bits_of_small by exact B. reflexivity.
Qed.
Lemma in_concat pks : Forall (fun x => length x = 188%nat /\ field x 0 8 = 0x47) pks -> bytes (concat pks) -> in_stream (concat pks) pks.
Proof.
  induction 1 as [|x l [L F] _ IH]; intros B; [constructor; cbn; lia|]. cbn [concat] in *. apply bytes_app in B. destruct B as [Bx Bl].
  econstructor; [|exact L|exact (IH Bl)]. destruct (first_byte x Bx ltac:(lia) F) as [r ->]. reflexivity.
Qed.
Lemma send_done m t pid cc : sendable t -> pid < 8192 -> cc < 16 -> (m = Debug -> match t with TEit t => ~ 0x50 <= eit_table t | _ => True end) -> exists r, send m t pid cc [] = Ok r.
Proof.
  intros S Hp Hc Z. destruct t as [t|t|t|t|t|t|t]; cbn [send sendable] in *.
  - destruct S as (H & L). destruct (pat_demux_spec m t pid cc [] H Hp Hc) as (E & _). eexists. exact E.
  - destruct S as (H & F & _). destruct (pmt_demux_spec m t pid cc [] H F Hp Hc) as (g0 & gs & _ & _ & E). cbv zeta in E. eexists. exact (proj1 E).
  - destruct S as (H & F & _). destruct (nit_demux_spec m t pid cc [] H F Hp Hc) as (g0 & gs & _ & _ & E). cbv zeta in E. eexists. exact (proj1 E).
  - destruct S as (H & F & _). destruct (sdt_demux_spec m t pid cc [] H F Hp Hc) as (g0 & gs & _ & _ & E). cbv zeta in E. eexists. exact (proj1 E).
  - destruct S as [(H & F & X & T & L1 & L2)|(H & F & X & T & L)].
    + destruct (eit_pf_demux m t pid cc [] H F T L2 Hp Hc) as [E K]. eexists. exact E.
    + destruct m; [exfalso; apply Z; [reflexivity|apply T]|]. destruct (eit_items t) as [|first items] eqn:E; [cbn in L; lia|].
      destruct (eit_demux_schedule Release t first items pid cc [] H E F T Hp Hc) as [D' _]. destruct (eit_plan_release t first items) as (lt & l & P). rewrite P in D'. eexists. exact D'.
  - eexists. exact (tdt_demux_spec m t pid cc [] S Hp Hc).
  - destruct S as (H1 & H2 & H3 & H4). eexists. exact (proj1 (tot_demux_spec m t pid cc [] H1 H2 H3 Hp Hc)).
Qed.
Lemma multi_done m jobs : jobs_ok jobs -> (m = Debug -> Forall (fun j => match snd j with TEit t => ~ 0x50 <= eit_table t | _ => True end) jobs) ->
  forall c dst, (forall p, c p < 16) -> exists r, multiplex m jobs c dst = Ok r.
Proof.
  induction 1 as [|[pid t] r [Hp S] _ IH]; intros Z c dst Hc; cbn [multiplex]; [eexists; reflexivity|]. cbn [fst snd] in *.
  destruct (send_done m t pid (c pid) S Hp (Hc pid)) as [r0 D]; [intros Y; specialize (Z Y); inversion Z; assumption|].
  destruct (send_sections m t pid (c pid) r0 S Hp (Hc pid) D) as (ss & L & ->). rewrite send_behind, D. cbn [P_frame.after bind].
  apply IH; [intros Y; specialize (Z Y); inversion Z; assumption|]. apply put_lt; [exact Hc|apply N.mod_lt; discriminate].
Qed.

(** ** together *)
Definition is_out (m : mode) (jobs : list (N * table)) (c : N -> N) (dst : list N) (c' : N -> N) (pks : list (list N)) : Prop :=
  jobs_ok jobs /\ (forall p, c p < 16) /\ multiplex m jobs c dst = Ok (c', dst ++ concat pks) /\ Forall (fun x => length x = 188%nat) pks.
Lemma out_made m jobs c dst c' pks : is_out m jobs c dst c' pks -> made m c jobs pks c'.
Proof.
  intros (J & C & E & L). destruct (multi_made m jobs J c dst c' _ C E) as (pks' & X & M). apply app_inv_head in X.
  rewrite (concat_inj pks pks' L (made_188 _ _ _ _ _ M) X). exact M.
Qed.
Lemma out_exists m jobs c dst c' out : jobs_ok jobs -> (forall p, c p < 16) -> multiplex m jobs c dst = Ok (c', out) -> exists pks, out = dst ++ concat pks /\ Forall (fun x => length x = 188%nat) pks.
Proof. intros J C E. destruct (multi_made m jobs J c dst c' _ C E) as (pks & -> & M). exists pks. split; [reflexivity|]. exact (made_188 _ _ _ _ _ M). Qed.
Lemma out_running m jobs c dst c' pks : is_out m jobs c dst c' pks -> forall pid, running pid (c pid) (filter (on pid) pks) /\ c' pid = (c pid + N.of_nat (length (filter (on pid) pks))) mod 16.
Proof. intros O. exact (made_running m c jobs pks c' (out_made _ _ _ _ _ _ O) (proj1 (proj2 O))). Qed.
Lemma out_stream m jobs c dst c' pks : is_out m jobs c dst c' pks -> in_stream (concat pks) pks /\ bytes (concat pks).
Proof. intros O. pose proof (out_made _ _ _ _ _ _ O) as M. pose proof (made_bytes _ _ _ _ _ M) as B. split; [|exact B]. apply in_concat; [exact (made_sync _ _ _ _ _ M)|exact B]. Qed.
Lemma out_heard {T} (parse : mode -> T -> psi -> res T) step (good : list table -> T -> T -> Prop) : hears parse step -> (forall l old u, steps step old l u -> good l old u) ->
  forall m jobs c dst c' pks, is_out m jobs c dst c' pks -> forall m' pid p old, exists q u, receive m' (parse m') p old (filter (on pid) pks) = Ok (q, u) /\ good (tables_on pid jobs) old u.
Proof.
  intros H G m jobs c dst c' pks O m' pid p old. destruct (made_heard parse step H m c jobs pks c' (out_made _ _ _ _ _ _ O) m' pid p old) as (q & u & E & S).
  exists q, u. split; [exact E|]. apply G. exact S.
Qed.

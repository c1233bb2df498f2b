(** Property theorem C69: a table received from a foreign sender is sent on without loss.
    Specification: S_system, S_relay. *)
From Verif Require Import Prelude Layout S_ts S_crc S_utils S_psi S_text M_text M_ts M_psi M_drive M_recv M_desc S_desc S_forward M_tables S_tables
  Props_tables Props_eit M_reader M_system S_system Props_system S_relay.
From Verif Require P_tab2 P_relay Facts.

(** ** vocabulary of the statements *)
(** sending [t] on any PID, after anything else, and receiving it into a new table gives [t] *)
Definition passes {T} (demux : mode -> T -> N -> N -> list N -> res (N * list N)) (parse : mode -> T -> psi -> res T) (new t : T) : Prop :=
  forall m pid cc dst, pid < 8192 -> cc < 16 -> exists ss, sends (demux m t pid cc dst) pid cc dst ss /\
  forall m' p, exists q, receive m' (parse m') p new (stream pid cc ss) = Ok (q, t).
(** received from foreign packets and sent on *)
Definition relayed {T} (demux : mode -> T -> N -> N -> list N -> res (N * list N)) (parse : mode -> T -> psi -> res T) (new : T)
  (pks : list (list N)) (t : T) : Prop :=
  (forall m p, exists q, receive m (parse m) p new pks = Ok (q, t)) /\ passes demux parse new t.

Lemma framed_ok ss ids min : Forall framed ss -> Forall P_relay.sect_ok (heard ids min ss).
Proof.
  intros F. rewrite Forall_forall in *. intros s H. apply filter_In in H. destruct (F s (proj1 H)) as [B L]. split; [exact B|].
  rewrite L. unfold section_length. pose proof (Facts.field_lt s 12 12) as X. change (2 ^ N.of_nat 12) with 4096 in X. lia.
Qed.
Lemma heard_ids ss ids min : Forall (fun s => ids (field s 0 8) = true) (heard ids min ss).
Proof. apply Forall_forall. intros s H. apply filter_In in H. destruct H as [_ H]. apply andb_prop in H. destruct H as [H _]. apply andb_prop in H. apply H. Qed.

(** * C69 *)
Theorem C69_pat : forall ls ss ts, Forall2 carries ls ss -> Forall framed ss -> ts <> [] ->
  Forall2 pat_reads (heard id_pat 12 ss) ts -> let t := fold_left pat_add ts pat_default in
  (length (pat_items t) <= 253)%nat ->
  relayed pat_demux pat_parse pat_default (map encode (concat ls)) t.
Proof.
  intros ls ss ts C F Ne R t L. destruct (P_relay.pat_collected _ _ Ne R L) as [S1 S2]. split.
  - intros m p. exact (C61_pat m p pat_default ls ss ts C F R).
  - intros m pid cc dst Hp Hc. apply C44_recovered; assumption.
Qed.
Print Assumptions C69_pat.
Theorem C69_pmt : forall ls ss ts, Forall2 carries ls ss -> Forall framed ss -> ts <> [] ->
  Forall2 pmt_reads (heard id_pmt 16 ss) ts -> Forall pmt_kept (heard id_pmt 16 ss) ->
  relayed pmt_demux pmt_parse pmt_default (map encode (concat ls)) (fold_left pmt_add ts pmt_default).
Proof.
  intros ls ss ts C F Ne R K. destruct (P_relay.pmt_collected _ _ Ne (framed_ok _ _ _ F) R K) as (S1 & S2 & S3 & S4). split.
  - intros m p. apply (C61_pmt m p pmt_default ls ss ts C F). clear - R K. induction R as [|s t hs ts R _ IH]; [constructor|].
    inversion K as [|? ? [Z _] K']; subst. constructor; [|auto]. revert R. unfold pmt_reads, pmt_seen, P_tab2.pmt_seen. rewrite Z. exact (fun R => R).
  - intros m pid cc dst Hp Hc. apply C45_recovered; assumption.
Qed.
Print Assumptions C69_pmt.
Theorem C69_nit : forall ls ss ts, Forall2 carries ls ss -> Forall framed ss -> ts <> [] ->
  Forall2 nit_reads (heard id_nit 16 ss) ts -> Forall nit_kept (heard id_nit 16 ss) ->
  (16 + network_bytes (heard id_nit 16 ss) <= N.to_nat 4098)%nat ->
  relayed nit_demux nit_parse nit_default (map encode (concat ls)) (fold_left nit_add ts nit_default).
Proof.
  intros ls ss ts C F Ne R K L.
  destruct (P_relay.nit_collected _ _ Ne (framed_ok _ _ _ F) R K (heard_ids _ _ _) L) as (S1 & S2 & S3 & S4 & S5). split.
  - intros m p. exact (C61_nit m p nit_default ls ss ts C F R).
  - intros m pid cc dst Hp Hc. apply C47_recovered; assumption.
Qed.
Print Assumptions C69_nit.
Theorem C69_sdt : forall ls ss ts, Forall2 carries ls ss -> Forall framed ss -> ts <> [] ->
  Forall2 sdt_reads (heard id_sdt 15 ss) ts -> Forall sdt_kept (heard id_sdt 15 ss) ->
  relayed sdt_demux sdt_parse sdt_default (map encode (concat ls)) (fold_left sdt_add ts sdt_default).
Proof.
  intros ls ss ts C F Ne R K.
  destruct (P_relay.sdt_collected _ _ Ne (framed_ok _ _ _ F) R K (heard_ids _ _ _)) as (S1 & S2 & S3 & S4). split.
  - intros m p. exact (C61_sdt m p sdt_default ls ss ts C F R).
  - intros m pid cc dst Hp Hc. apply C48_recovered; assumption.
Qed.
Print Assumptions C69_sdt.
(** present and following events *)
Theorem C69_pf : forall ls ss ts, Forall2 carries ls ss -> Forall framed ss -> ts <> [] ->
  Forall2 eit_reads (heard id_eit 18 ss) ts -> Forall eit_kept (heard id_eit 18 ss) ->
  Forall (fun s => field s 0 8 = 0x4E \/ field s 0 8 = 0x4F) (heard id_eit 18 ss) -> let t := fold_left eit_add ts eit_default in
  (1 <= length (eit_items t) <= 256)%nat ->
  relayed eit_demux eit_parse eit_default (map encode (concat ls)) t.
Proof.
  intros ls ss ts C F Ne R K T t L.
  destruct (P_relay.eit_collected _ _ Ne (framed_ok _ _ _ F) R K T L) as (S1 & S2 & S3 & S4 & S5 & S6). split.
  - intros m p. exact (C61_eit m p eit_default ls ss ts C F R).
  - intros m pid cc dst Hp Hc. destruct (C49_recovered m t pid cc dst S1 S2 S4 ltac:(lia) S3 Hp Hc) as (ss' & A & _ & B). exists ss'. split; assumption.
Qed.
Print Assumptions C69_pf.
(** one TOT (the descriptors of several are collected, C52), whose descriptors end before the CRC *)
Theorem C69_tot : forall ls ss s t, Forall2 carries ls ss -> Forall framed ss -> heard id_tot 14 ss = [s] -> tot_reads s t -> tot_kept s ->
  (14 + N.to_nat (field s 68 12) <= length s)%nat ->
  relayed tot_demux tot_parse tot_default (map encode (concat ls)) t.
Proof.
  intros ls ss s t C F H R K L. pose proof (framed_ok ss id_tot 14 F) as G. rewrite H in G. inversion G as [|? ? G1 _]; subst.
  destruct (P_relay.tot_collected s t G1 R K L) as (S1 & S2 & S3 & S4).
  assert (E : forall u, tot_add tot_default u = u) by (intros []; reflexivity). split.
  - intros m p. destruct (C61_tot m p tot_default ls ss [t] C F ltac:(rewrite H; constructor; [exact R|constructor])) as [q Q].
    exists q. rewrite Q. cbn [fold_left]. rewrite E. reflexivity.
  - intros m pid cc dst Hp Hc. destruct (C52_tot m t pid cc dst S1 S2 S3 Hp Hc) as [A B]. eexists. split; [exact A|].
    intros m' p. destruct (B S4 m' p tot_default) as [q Q]. exists q. rewrite Q, E. reflexivity.
Qed.
Print Assumptions C69_tot.
(** the last of several times *)
Theorem C69_tdt : forall ls ss ts, Forall2 carries ls ss -> Forall framed ss -> Forall2 tdt_alone ls ss -> ts <> [] ->
  Forall2 tdt_reads (heard_tdt ss) ts -> Forall (fun s => in_day (field s 40 24)) (heard_tdt ss) ->
  relayed tdt_demux tdt_parse 0 (map encode (concat ls)) (last ts 0).
Proof.
  intros ls ss ts C F A Ne R K.
  assert (G : Forall (fun t => t < MJD_END) ts).
  { clear - R K. induction R as [|s t hs ts [-> [T _]] _ IH]; [constructor|]. inversion K as [|? ? K1 K2]; subst. constructor; [|auto].
    apply P_relay.time_end; [exact (Facts.field_lt s 24 16)|exact T|exact K1]. }
  assert (L : last ts 0 < MJD_END).
  { clear - G Ne. induction G as [|t ts G1 G2 IH]; [congruence|]. destruct ts as [|u ts]; [exact G1|]. apply IH. discriminate. }
  split.
  - intros m p. exact (C61_tdt m p 0 ls ss ts C F A R).
  - intros m pid cc dst Hp Hc. destruct (C52_tdt m (last ts 0) pid cc dst L Hp Hc) as [S1 S2]. eexists. split; [exact S1|].
    intros m' p. exact (S2 m' p 0).
Qed.
Print Assumptions C69_tdt.
(** what [loop_kept] and [entries_kept] ask for is found in one way only *)
Theorem C69_conditions : (forall recs tail, incomplete tail ->
    (loop_kept (loop_of recs ++ tail) <-> Forall (fun r => value_stays (fst r) (snd r)) recs)) /\
  (forall h P recs tail, (2 <= h)%nat -> Forall (entry h) recs -> cut_off h tail ->
    (entries_kept h P (concat recs ++ tail) <-> Forall P recs)).
Proof.
  split.
  - intros recs tail I. split; [intros K; exact (K recs tail eq_refl I)|apply P_relay.loop_kept_intro; exact I].
  - intros h P recs tail H E C. split; [intros K; exact (K recs tail eq_refl C E)|apply P_relay.entries_kept_intro; assumption].
Qed.
Print Assumptions C69_conditions.

(** a PMT section of another sender (reserved bits 0), one stream, with descriptors [ds] *)
Definition foreign_pmt (ds : list N) : list N :=
  let s := [0x02; 0x30; 18 + N.of_nat (length ds); 0; 1; 0x05; 0; 0; 0x01; 0; 0; 0; 0x1B; 0x01; 0; 0; N.of_nat (length ds)] ++ ds in
  s ++ to_be 4 (crc_spec s).
(** English: the hypotheses of C69_pmt hold, and the table arrives *)
Definition english : list (N * list N) := [(0x0A, [0x65; 0x6E; 0x67; 0]); (0x52, [7])].
Definition english_pmt : pmt := mkPmt 2 1 256 [] [mkPmtI 0x1B 256 [D0A [mk0Ai (mkDvb 0 [0x65; 0x6E; 0x67]) 0]; D52 7]].
Lemma english_inner : inner 12 (foreign_pmt (loop_of english)) = concat [[0x1B; 0x01; 0; 0; 9] ++ loop_of english] ++ [].
Proof. vm_compute. reflexivity. Qed.
Lemma english_entry : Forall (entry 5) [[0x1B; 0x01; 0; 0; 9] ++ loop_of english].
Proof. constructor; [split; vm_compute; [lia|reflexivity]|constructor]. Qed.
Lemma english_reads : pmt_reads (foreign_pmt (loop_of english)) english_pmt.
Proof.
  exists [], [mkPmtI 0x1B 256 [D0A [mk0Ai (mkDvb 0 [0x65; 0x6E; 0x67]) 0]; D52 7]].
  split; [vm_compute; reflexivity|]. replace (N.to_nat (field (foreign_pmt (loop_of english)) 84 12)) with 0%nat by (vm_compute; reflexivity).
  split; [vm_compute; lia|]. split; [exists [], []; split; [reflexivity|split; [left; cbn; lia|constructor]]|].
  change (12 + 0)%nat with 12%nat. rewrite english_inner. exists [[0x1B; 0x01; 0; 0; 9] ++ loop_of english], []. split; [reflexivity|].
  split; [left; cbn [length]; lia|]. split; [exact english_entry|]. constructor; [|constructor].
  exists [D0A [mk0Ai (mkDvb 0 [0x65; 0x6E; 0x67]) 0]; D52 7].
  split; [vm_compute; reflexivity|]. exists english, []. split; [vm_compute; reflexivity|].
  split; [left; cbn; lia|]. constructor; [|constructor; [|constructor]].
  - apply (r0A [0x65; 0x6E; 0x67; 0]). reflexivity.
  - apply (r52 [7]). reflexivity.
Qed.
Lemma english_kept : pmt_kept (foreign_pmt (loop_of english)).
Proof.
  split; [vm_compute; reflexivity|]. rewrite english_inner. apply (proj2 C69_conditions); [lia|exact english_entry|left; cbn [length]; lia|].
  constructor; [|constructor]. change (skipn 5 ([0x1B; 0x01; 0; 0; 9] ++ loop_of english)) with (loop_of english ++ []).
  apply (proj1 C69_conditions); [left; cbn; lia|]. constructor; [|constructor; [exact I|constructor]].
  intros _. constructor; [|constructor]. right. left. vm_compute. discriminate.
Qed.
Example C69_ex : let s := foreign_pmt (loop_of english) in
  Forall2 carries [[with_section s]] [s] /\ Forall framed [s] /\ heard id_pmt 16 [s] = [s] /\ Forall2 pmt_reads [s] [english_pmt] /\ Forall pmt_kept [s].
Proof.
  cbv zeta. split; [constructor; [apply with_section_carries; [vm_compute; repeat constructor|vm_compute; lia]|constructor]|].
  split; [constructor; [split; vm_compute; [repeat constructor|reflexivity]|constructor]|]. split; [vm_compute; reflexivity|].
  split; constructor; [exact english_reads|constructor|exact english_kept|constructor].
Qed.
Example C69_ex_run : exists q, receive Debug (pmt_parse Debug) psi_default pmt_default (map encode [with_section (foreign_pmt (loop_of english))]) = Ok (q, english_pmt) /\
  exists pk, pmt_demux Debug english_pmt 300 4 [] = Ok (5, pk) /\ firstn 35 pk =
    [71; 65; 44; 20; 0; 2; 176; 27; 0; 1; 197; 0; 0; 225; 0; 240; 0; 27; 225; 0; 240; 9; 10; 4; 101; 110; 103; 0; 82; 1; 7; 197; 187; 241; 218] /\
  exists q', receive Debug (pmt_parse Debug) psi_default pmt_default [pk] = Ok (q', english_pmt).
Proof.
  eexists. split; [vm_compute; reflexivity|]. eexists. split; [vm_compute; reflexivity|]. split; [reflexivity|].
  eexists. vm_compute. reflexivity.
Qed.
(** the condition matters: a language code that starts with 0x10 makes the descriptor behind it disappear from the
    table that is sent on *)
Theorem C69_language_refuted : exists ds t u, let s := foreign_pmt ds in
  Forall2 carries [[with_section s]] [s] /\ Forall framed [s] /\ heard id_pmt 16 [s] = [s] /\
  (exists q, receive Debug (pmt_parse Debug) psi_default pmt_default (map encode [with_section s]) = Ok (q, t)) /\
  (exists pk q, pmt_demux Debug t 300 4 [] = Ok (5, pk) /\ receive Debug (pmt_parse Debug) psi_default pmt_default [pk] = Ok (q, u)) /\
  map (fun i => map desc_tag (pmti_descs i)) (pmt_items t) = [[0x0A; 0x52]] /\
  map (fun i => map desc_tag (pmti_descs i)) (pmt_items u) = [[0x0A]].
Proof.
  exists (loop_of [(0x0A, [0x10; 0; 5; 1]); (0x52, [7])]). eexists. eexists. cbv zeta.
  split; [constructor; [apply with_section_carries; [vm_compute; repeat constructor|vm_compute; lia]|constructor]|].
  split; [constructor; [split; vm_compute; [repeat constructor|reflexivity]|constructor]|]. split; [vm_compute; reflexivity|].
  split; [eexists; vm_compute; reflexivity|]. split; [eexists; eexists; split; [vm_compute; reflexivity|vm_compute; reflexivity]|]. split; reflexivity.
Qed.
Print Assumptions C69_language_refuted.

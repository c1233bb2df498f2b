(** Proofs: tables that are sent as the same packets are the same. *)
From Verif Require Import Prelude Layout Facts S_ts S_crc S_utils S_psi M_text M_psi M_drive M_recv M_desc S_desc M_tables S_tables S_sender S_wide S_distinct.
From Verif Require Import P_desc P_desc2 P_psi P_sect W_desc P_tab P_tab2 P_tab3 P_tab4 P_tab5 W_tables P_eit P_eit2 P_eit3 P_eit4 P_eit5 W_eit W_sys P_wide P_wide2.

(** ** packets *)
Lemma concat_188 : forall (a b : list (list N)), Forall (fun x => length x = 188%nat) a -> Forall (fun x => length x = 188%nat) b -> concat a = concat b -> a = b.
Proof.
  induction a as [|x a IH]; intros [|y b] A B E; [reflexivity| | |]; cbn [concat] in E.
  - inversion B; subst. apply (f_equal (@length N)) in E. rewrite app_length in E. cbn [length] in E. lia.
  - inversion A; subst. apply (f_equal (@length N)) in E. rewrite app_length in E. cbn [length] in E. lia.
  - inversion A; inversion B; subst. assert (X : x = y) by (apply (f_equal (firstn 188)) in E; rewrite !firstn_app in E;
      replace (188 - length x)%nat with 0%nat in E by lia; replace (188 - length y)%nat with 0%nat in E by lia;
      rewrite !firstn_O, !app_nil_r, !firstn_all2 in E by lia; exact E).
    subst y. apply app_inv_head in E. f_equal. apply IH; assumption.
Qed.
(** a receiver that keeps every section *)
Definition keep (l : list (list N)) (p : psi) : res (list (list N)) :=
  c <- psi_check p ;; if c : bool then Ok (l ++ [firstn (p_size p) (p_buffer p)]) else Ok l.
Lemma keep_quiet : quiet keep. Proof. intros t p H _. unfold keep. rewrite H. reflexivity. Qed.
Lemma keep_blind : blind keep. Proof. intros t s n i c i' c'. reflexivity. Qed.
Lemma keep_all : forall ss l, Forall section_ok ss -> parse_sections keep l ss = Ok (l ++ ss).
Proof.
  induction ss as [|s r IH]; intros l H; cbn [parse_sections]; [rewrite app_nil_r; reflexivity|]. inversion H; subst.
  assert (E : keep l (mkPsi s (length s) 0 0) = Ok (l ++ [s])).
  { unfold keep. rewrite (has_check _ s (has_alone s H2)). cbn [bind p_size p_buffer]. rewrite firstn_all. reflexivity. }
  rewrite E. cbn [bind]. rewrite IH by assumption. rewrite <- app_assoc. reflexivity.
Qed.
Lemma stream_sections pid cc pid' cc' ss ss' : Forall section_ok ss -> Forall section_ok ss' -> cc < 16 -> cc' < 16 ->
  stream pid cc ss = stream pid' cc' ss' -> ss = ss'.
Proof.
  intros A B C C' E. destruct (receive_stream Debug keep pid keep_quiet keep_blind ss psi_default [] cc A C _ (keep_all ss [] A)) as [q R].
  destruct (receive_stream Debug keep pid' keep_quiet keep_blind ss' psi_default [] cc' B C' _ (keep_all ss' [] B)) as [q' R']. rewrite E in R. rewrite R in R'. cbn [app] in R'. congruence.
Qed.
Lemma first_header pid cc s r : pid < 8192 -> cc < 16 -> exists x l, stream pid cc (s :: r) = x :: l /\ field x 11 13 = pid /\ field x 28 4 = cc.
Proof.
  intros Hp Hc. rewrite stream_cons. unfold section_packets. destruct (chop 184 (pad184 (0 :: s))) as [|c k] eqn:E.
  - exfalso. unfold chop, pad184 in E. cbn [app length chop_fuel] in E. discriminate.
  - cbn [number_packets app]. eexists. eexists. split; [reflexivity|]. unfold ts_header. split; fv.
Qed.
Lemma sends_apart dm pid cc pid' cc' dst ss ss' : sends dm pid cc dst ss -> sends dm pid' cc' dst ss' -> Forall section_ok ss -> Forall section_ok ss' ->
  ss <> [] -> pid < 8192 -> pid' < 8192 -> cc < 16 -> cc' < 16 -> pid = pid' /\ cc = cc' /\ ss = ss'.
Proof.
  intros S S' A B Z P P' C C'. unfold sends in *. rewrite S in S'. injection S' as _ E. apply app_inv_head in E.
  assert (AB : forall l, Forall section_ok l -> Forall bytes l) by (intros l X; eapply Forall_impl; [|exact X]; intros s Y; apply Y).
  apply concat_188 in E; [|apply stream_188; auto|apply stream_188; auto].
  pose proof (stream_sections _ _ _ _ _ _ A B C C' E) as <-. destruct ss as [|s r]; [congruence|].
  destruct (first_header pid cc s r P C) as (x & l & E1 & E2 & E3), (first_header pid' cc' s r P' C') as (x' & l' & E1' & E2' & E3').
  rewrite E1, E1' in E. injection E as <- _. repeat split; congruence.
Qed.

(** ** tables in range *)
Lemma apart_pat m t t' pid cc pid' cc' dst : pat_ok t -> pat_ok t' -> (length (pat_items t) <= 253)%nat -> (length (pat_items t') <= 253)%nat ->
  pid < 8192 -> pid' < 8192 -> cc < 16 -> cc' < 16 -> pat_demux m t pid cc dst = pat_demux m t' pid' cc' dst -> pid = pid' /\ cc = cc' /\ t = t'.
Proof.
  intros H H' L L' P P' C C' E. destruct (pat_demux_spec m t pid cc dst H P C) as (S & A & _), (pat_demux_spec m t' pid' cc' dst H' P' C') as (S' & A' & _).
  rewrite firstn_all2 in * by assumption. rewrite E in S.
  destruct (sends_apart _ _ _ _ _ dst _ _ S S') as (X & Y & Z); try assumption; [constructor; [exact A|constructor]|constructor; [exact A'|constructor]|discriminate|]. split; [exact X|]. split; [exact Y|].
  pose proof (pat_recover Debug t (pat_items t) pat_default H (proj2 (proj2 H)) A) as R. pose proof (pat_recover Debug t' (pat_items t') pat_default H' (proj2 (proj2 H')) A') as R'.
  rewrite Z in R. rewrite R in R'. injection R' as E1 E2 E3. revert E1 E2 E3. clear. destruct t, t'. cbn. congruence.
Qed.
Lemma apart_sdt m t t' pid cc pid' cc' dst : sdt_ok t -> sdt_ok t' -> sdt_fits (N.to_nat 4098) t -> sdt_fits (N.to_nat 4098) t' ->
  Forall (item_exact sdti_descs) (sdt_items t) -> Forall (item_exact sdti_descs) (sdt_items t') -> sdt_table t = 0x42 \/ sdt_table t = 0x46 -> sdt_table t' = 0x42 \/ sdt_table t' = 0x46 ->
  pid < 8192 -> pid' < 8192 -> cc < 16 -> cc' < 16 -> sdt_demux m t pid cc dst = sdt_demux m t' pid' cc' dst -> pid = pid' /\ cc = cc' /\ t = t'.
Proof.
  intros H H' F F' X X' I I' P P' C C' E. destruct (sdt_demux_spec m t pid cc dst H F P C) as (g & gs & G & _ & S & A), (sdt_demux_spec m t' pid' cc' dst H' F' P' C') as (g' & gs' & G' & _ & S' & A').
  rewrite E in S. destruct (sends_apart _ _ _ _ _ dst _ _ S S') as (Y1 & Y2 & Z); try assumption; [discriminate|]. split; [exact Y1|]. split; [exact Y2|].
  pose proof (sdt_recover Debug t _ g gs sdt_default H X I G A) as R. pose proof (sdt_recover Debug t' _ g' gs' sdt_default H' X' I' G' A') as R'.
  rewrite Z in R. rewrite R in R'. injection R' as E1 E2 E3 E4 E5. revert E1 E2 E3 E4 E5. clear. destruct t, t'. cbn. congruence.
Qed.
Lemma apart_nit m t t' pid cc pid' cc' dst : nit_ok t -> nit_ok t' -> nit_fits (N.to_nat 4098) t -> nit_fits (N.to_nat 4098) t' -> loop_exact (nit_descs t) -> loop_exact (nit_descs t') ->
  Forall (item_exact niti_descs) (nit_items t) -> Forall (item_exact niti_descs) (nit_items t') -> nit_table t = 0x40 \/ nit_table t = 0x41 -> nit_table t' = 0x40 \/ nit_table t' = 0x41 ->
  pid < 8192 -> pid' < 8192 -> cc < 16 -> cc' < 16 -> nit_demux m t pid cc dst = nit_demux m t' pid' cc' dst -> pid = pid' /\ cc = cc' /\ t = t'.
Proof.
  intros H H' F F' D D' X X' I I' P P' C C' E. destruct (nit_demux_spec m t pid cc dst H F P C) as (g & gs & G & _ & S & A), (nit_demux_spec m t' pid' cc' dst H' F' P' C') as (g' & gs' & G' & _ & S' & A').
  rewrite E in S. destruct (sends_apart _ _ _ _ _ dst _ _ S S') as (Y1 & Y2 & Z); try assumption; [discriminate|]. split; [exact Y1|]. split; [exact Y2|].
  pose proof (nit_recover Debug t _ g gs nit_default H D X I G A) as R. pose proof (nit_recover Debug t' _ g' gs' nit_default H' D' X' I' G' A') as R'.
  rewrite Z in R. rewrite R in R'. injection R' as E1 E2 E3 E4 E5. revert E1 E2 E3 E4 E5. clear. destruct t, t'. cbn. congruence.
Qed.
Lemma apart_tot m t t' pid cc pid' cc' dst : tot_time t < MJD_END -> tot_time t' < MJD_END -> loop_ok (tot_descs t) -> loop_ok (tot_descs t') ->
  (length (wire (tot_descs t)) <= N.to_nat 4084)%nat -> (length (wire (tot_descs t')) <= N.to_nat 4084)%nat -> loop_exact (tot_descs t) -> loop_exact (tot_descs t') ->
  pid < 8192 -> pid' < 8192 -> cc < 16 -> cc' < 16 -> tot_demux m t pid cc dst = tot_demux m t' pid' cc' dst -> pid = pid' /\ cc = cc' /\ t = t'.
Proof.
  intros H H' O O' L L' X X' P P' C C' E. destruct (P_tot.tot_demux_spec m t pid cc dst H O L P C) as (S & A), (P_tot.tot_demux_spec m t' pid' cc' dst H' O' L' P' C') as (S' & A').
  rewrite E in S. destruct (sends_apart _ _ _ _ _ dst _ _ S S') as (Y1 & Y2 & Z); try assumption; [constructor; [exact A|constructor]|constructor; [exact A'|constructor]|discriminate|]. split; [exact Y1|]. split; [exact Y2|].
  pose proof (P_tot.tot_recover Debug t tot_default H O X A) as R. pose proof (P_tot.tot_recover Debug t' tot_default H' O' X' A') as R'.
  rewrite Z in R. rewrite R in R'. injection R' as E1 E2. revert E1 E2. clear. destruct t, t'. cbn. congruence.
Qed.
Lemma ok_snd {A B} (a a' : A) (b b' : B) : Ok (a, b) = Ok (a', b') -> b = b'. Proof. congruence. Qed.
Lemma cons_hd {A} (a b : A) l k : a :: l = b :: k -> a = b. Proof. congruence. Qed.
Lemma apart_tdt m t t' pid cc pid' cc' dst : t < MJD_END -> t' < MJD_END -> pid < 8192 -> pid' < 8192 -> cc < 16 -> cc' < 16 ->
  tdt_demux m t pid cc dst = tdt_demux m t' pid' cc' dst -> pid = pid' /\ cc = cc' /\ t = t'.
Proof.
  intros H H' P P' C C' E. pose proof (P_tot.tdt_demux_spec m t pid cc dst H P C) as S. pose proof (P_tot.tdt_demux_spec m t' pid' cc' dst H' P' C') as S'.
  unfold sends in *. rewrite E in S. rewrite S in S'. apply ok_snd in S'. rename S' into X. apply app_inv_head in X.
  assert (B : forall t, bytes (tdt_bytes t)) by (intros u; unfold tdt_bytes, short_section; apply bytes_app; split; apply layout_bytes).
  apply concat_188 in X; [|apply stream_188; [constructor; [apply B|constructor]|assumption]|apply stream_188; [constructor; [apply B|constructor]|assumption]].
  destruct (first_header pid cc (tdt_bytes t) [] P C) as (x & l & E1 & E2 & E3), (first_header pid' cc' (tdt_bytes t') [] P' C') as (x' & l' & E1' & E2' & E3').
  destruct (P_tot.tdt_receive Debug t pid cc psi_default 0 H C) as [q R], (P_tot.tdt_receive Debug t' pid' cc' psi_default 0 H' C') as [q' R'].
  rewrite X in R. rewrite R in R'. rewrite E1, E1' in X. apply cons_hd in X. apply ok_snd in R'. subst x'. rewrite E2 in E2'. rewrite E3 in E3'. auto.
Qed.

Lemma cons_tl {A} (x y : A) l l' : x :: l = y :: l' -> l = l'. Proof. congruence. Qed.
Lemma ok_inj {A} (a b : A) : Ok a = Ok b -> a = b. Proof. congruence. Qed.
(** ** PMT: its program descriptors are not read back by the library, so the sections are compared *)
Lemma pmt_back_all t last i g : let ds := if (i =? 0)%nat then pmt_descs t else [] in
  pmt_version t < 2 ^ 5 -> pmt_pnr t < 2 ^ 16 -> pmt_pcr t < 2 ^ 13 -> loop_ok (pmt_descs t) -> loop_exact (pmt_descs t) ->
  Forall pmt_item_ok g -> Forall (item_exact pmti_descs) g ->
  pmt_reads (pmt_section t last i g) (mkPmt (pmt_version t) (pmt_pnr t) (pmt_pcr t) ds g).
Proof.
  intros ds H1 H2 H3 H4 H5 F E. unfold pmt_reads. cbv zeta. exists ds, g. unfold pmt_section. cbv zeta. fold ds.
  assert (D1 : loop_ok ds) by (subst ds; destruct (i =? 0)%nat; [assumption|split; [constructor|cbn; lia]]).
  assert (D2 : loop_exact ds) by (subst ds; destruct (i =? 0)%nat; [assumption|constructor]). pose proof (flen _ D1) as D3.
  match goal with |- context [section ?a ?b ?c ?d ?e ?f ?r] => destruct (section_head a b c d e f r ltac:(reflexivity) H2 H1) as (E1 & E2 & E3); pose proof (section_len a b c d e f r) as SL end.
  rewrite E2, E3. rewrite (section_field _ _ _ _ _ _ _ 67 3), (section_field _ _ _ _ _ _ _ 84 20) by (try lia; rewrite app_length, layout_length by reflexivity; tw; lia).
  replace (field (layout [(3%nat, 7); (13%nat, pmt_pcr t); (4%nat, 15); (12%nat, wlen ds)] ++ wire ds ++ flat_map pmt_entry g) 20 12) with (wlen ds) by (symmetry; fv).
  replace (field (layout [(3%nat, 7); (13%nat, pmt_pcr t); (4%nat, 15); (12%nat, wlen ds)] ++ wire ds ++ flat_map pmt_entry g) 3 13) with (pmt_pcr t) by (symmetry; fv).
  rewrite (wnat _ D1). split; [reflexivity|].
  rewrite !app_length, !layout_length in SL by reflexivity. tw. rewrite SL. split; [lia|].
  rewrite (section_slice _ _ _ _ _ _ _ 12 4) by (rewrite ?app_length, ?layout_length by reflexivity; tw; lia).
  skip_head 4%nat. rewrite (firstn_len_app (length (wire ds))) by reflexivity. split; [apply wire_reads; [apply D1|assumption]|].
  rewrite (section_inner _ _ _ _ _ _ _ _ (4 + length (wire ds))) by (rewrite ?app_length, ?layout_length by reflexivity; tw; lia).
  rewrite skipn_plus. skip_head 4%nat. rewrite (skipn_len_app (length (wire ds))) by reflexivity.
  apply (back_all _ _ _ pmt_item_ok (item_exact pmti_descs)); [lia|apply pmt_entry_back|assumption|assumption].
Qed.
Lemma pmt_reads_one s a b : bytes s -> pmt_reads s a -> pmt_reads s b -> a = b.
Proof.
  intros B (ds & items & -> & _ & R & E) (ds' & items' & -> & _ & R' & E').
  assert (X : descs_parse Debug [] (firstn (N.to_nat (field s 84 12)) (skipn 12 s)) = Ok ([] ++ ds)) by (apply loop_parse; [apply bytes_firstn, bytes_skipn, B|exact R]).
  assert (X' : descs_parse Debug [] (firstn (N.to_nat (field s 84 12)) (skipn 12 s)) = Ok ([] ++ ds')) by (apply loop_parse; [apply bytes_firstn, bytes_skipn, B|exact R']).
  pose proof (entries_parse 5 (pmt_item_parse Debug) pmt_read _ [] items ltac:(lia) (inner_bytes _ s B) (pmt_item_reads Debug) E) as Y.
  pose proof (entries_parse 5 (pmt_item_parse Debug) pmt_read _ [] items' ltac:(lia) (inner_bytes _ s B) (pmt_item_reads Debug) E') as Y'.
  rewrite X in X'. rewrite Y in Y'. cbn [app] in *. congruence.
Qed.
Lemma pmt_groups t t' L L' : pmt_ok t -> pmt_ok t' -> loop_exact (pmt_descs t) -> loop_exact (pmt_descs t') ->
  forall gs gs' i, Forall (Forall pmt_item_ok) gs -> Forall (Forall pmt_item_ok) gs' -> Forall (Forall (item_exact pmti_descs)) gs -> Forall (Forall (item_exact pmti_descs)) gs' ->
  Forall section_ok (numbered (pmt_section t L) i gs) -> numbered (pmt_section t L) i gs = numbered (pmt_section t' L') i gs' ->
  gs = gs' /\ (i = 0%nat -> gs <> [] -> pmt_version t = pmt_version t' /\ pmt_pnr t = pmt_pnr t' /\ pmt_pcr t = pmt_pcr t' /\ pmt_descs t = pmt_descs t').
Proof.
  intros (H1 & H2 & H3 & H4 & _) (H1' & H2' & H3' & H4' & _) X X'. induction gs as [|g gs IH]; intros [|g' gs'] i G G' E E' K N; cbn [numbered] in *; try discriminate.
  - split; [reflexivity|]. congruence.
  - pose proof (cons_hd _ _ _ _ N) as N1. pose proof (cons_tl _ _ _ _ N) as N2. clear N. inversion G; inversion G'; inversion E; inversion E'; inversion K; subst.
    pose proof (pmt_back_all t L i g H1 H2 H3 H4 X ltac:(assumption) ltac:(assumption)) as R. pose proof (pmt_back_all t' L' i g' H1' H2' H3' H4' X' ltac:(assumption) ltac:(assumption)) as R'.
    rewrite <- N1 in R'. match goal with Q : section_ok (pmt_section t L i g) |- _ => pose proof (pmt_reads_one _ _ _ (proj1 Q) R R') as Z end.
    injection Z as Z1 Z2 Z3 Z4 Z5. destruct (IH gs' (S i)) as [-> _]; try assumption. split; [congruence|]. intros -> _. auto.
Qed.
Lemma apart_pmt m t t' pid cc pid' cc' dst : pmt_ok t -> pmt_ok t' -> pmt_fits (N.to_nat 4098) t -> pmt_fits (N.to_nat 4098) t' -> loop_exact (pmt_descs t) -> loop_exact (pmt_descs t') ->
  Forall (item_exact pmti_descs) (pmt_items t) -> Forall (item_exact pmti_descs) (pmt_items t') ->
  pid < 8192 -> pid' < 8192 -> cc < 16 -> cc' < 16 -> pmt_demux m t pid cc dst = pmt_demux m t' pid' cc' dst -> pid = pid' /\ cc = cc' /\ t = t'.
Proof.
  intros H H' F F' D D' X X' P P' C C' E. destruct (pmt_demux_spec m t pid cc dst H F P C) as (g & gs & G & _ & S & A), (pmt_demux_spec m t' pid' cc' dst H' F' P' C') as (g' & gs' & G' & _ & S' & A').
  rewrite E in S. destruct (sends_apart _ _ _ _ _ dst _ _ S S') as (Y1 & Y2 & Z); try assumption; [discriminate|]. split; [exact Y1|]. split; [exact Y2|].
  pose proof H as (_ & _ & _ & _ & H5). pose proof H' as (_ & _ & _ & _ & H5'). destruct (in_groups _ _ _ _ G H5), (in_groups _ _ _ _ G X), (in_groups _ _ _ _ G' H5'), (in_groups _ _ _ _ G' X').
  destruct (pmt_groups t t' (N.of_nat (length gs)) (N.of_nat (length gs')) H H' D D' (g :: gs) (g' :: gs') 0) as [W1 W2]; try assumption; try (constructor; assumption).
  destruct (W2 eq_refl ltac:(discriminate)) as (V1 & V2 & V3 & V4). injection W1 as W1 W3. assert (V5 : pmt_items t = pmt_items t') by congruence.
  revert V1 V2 V3 V4 V5. clear. destruct t, t'. cbn. congruence.
Qed.

(** ** EIT *)
Lemma eit_same t t' : eit_table t = eit_table t' -> eit_add eit_default t = eit_add eit_default t' -> t = t'.
Proof. intros T E. injection E as E1 E2 E3 E4 E5 E6. revert E1 E2 E3 E4 E5 E6. clear. destruct t, t'. cbn. congruence. Qed.
Lemma eit_added t t' tb tb' : eit_table t = eit_table t' ->
  eit_add eit_default (mkEit tb (eit_version t) (eit_pnr t) (eit_tsid t) (eit_onid t) (eit_items t)) =
  eit_add eit_default (mkEit tb' (eit_version t') (eit_pnr t') (eit_tsid t') (eit_onid t') (eit_items t')) -> t = t'.
Proof. intros T E. injection E as E1 E2 E3 E4 E5 E6. revert T E1 E2 E3 E4 E5 E6. clear. destruct t, t'. cbn. congruence. Qed.
Lemma numbered_nil {A} (f : nat -> A -> list N) l i : l <> [] -> numbered f i l <> [].
Proof. destruct l; [congruence|discriminate]. Qed.
Lemma apart_pf m t t' pid cc pid' cc' dst : eit_ok t -> eit_ok t' -> eit_fits (N.to_nat 4098) t -> eit_fits (N.to_nat 4098) t' ->
  Forall (item_exact eiti_descs) (eit_items t) -> Forall (item_exact eiti_descs) (eit_items t') -> eit_table t = 0x4E \/ eit_table t = 0x4F -> eit_table t' = 0x4E \/ eit_table t' = 0x4F ->
  (0 < length (eit_items t) <= 256)%nat -> (0 < length (eit_items t') <= 256)%nat ->
  pid < 8192 -> pid' < 8192 -> cc < 16 -> cc' < 16 -> eit_demux m t pid cc dst = eit_demux m t' pid' cc' dst -> pid = pid' /\ cc = cc' /\ t = t'.
Proof.
  intros H H' F F' X X' I I' L L' P P' C C' E. destruct (eit_pf_demux m t pid cc dst H F I ltac:(lia) P C) as [S A], (eit_pf_demux m t' pid' cc' dst H' F' I' ltac:(lia) P' C') as [S' A'].
  assert (N1 : eit_items t <> []) by (intros Q; rewrite Q in L; cbn [length] in L; lia). assert (N2 : eit_items t' <> []) by (intros Q; rewrite Q in L'; cbn [length] in L'; lia).
  rewrite E in S. destruct (sends_apart _ _ _ _ _ dst _ _ S S') as (Y1 & Y2 & Z); try assumption; [apply numbered_nil; exact N1|]. split; [exact Y1|]. split; [exact Y2|].
  pose proof (eit_pf_recover Debug t _ _ eit_default H N1 X I A) as R. pose proof (eit_pf_recover Debug t' _ _ eit_default H' N2 X' I' A') as R'.
  rewrite Z in R. rewrite R in R'. apply ok_inj in R'.
  assert (T : eit_table t = eit_table t') by (injection R'; intros; assumption). exact (eit_same _ _ T R').
Qed.
Lemma plan_head m : forall items next tb sec cur l, plan m items next tb sec cur = Ok l -> exists x r, l = x :: r /\ part_table x = part_table cur.
Proof.
  induction items as [|i items IH]; intros next tb sec cur l E; cbn [plan] in E; [exists cur, []; split; [congruence|reflexivity]|].
  destruct (next <=? eiti_start i).
  - apply bind_inv in E as (nx & _ & E). apply bind_inv in E as ([s tb'] & _ & E). apply bind_inv in E as (r & _ & E). exists cur, r. split; [congruence|reflexivity].
  - destruct (big i (part_items cur)); [apply bind_inv in E as (s & _ & E); apply bind_inv in E as (r & _ & E); exists cur, r; split; [congruence|reflexivity]|].
    apply IH in E as (x & r & E & T). exists x, r. split; [exact E|exact T].
Qed.
Lemma blanks_length : forall n tb s, length (blanks n tb s) = n. Proof. induction n as [|n IH]; intros tb s; cbn [blanks length]; [reflexivity|rewrite IH; reflexivity]. Qed.
(** the section after the segments of the day that have passed carries the table_id of the table *)
Lemma plan_table m t first items lt l : eit_plan m t first items = Ok (lt, l) -> nth (N.to_nat (segment first + 1)) (map slot_table (sealing lt l)) 0 = eit_table t.
Proof.
  intros P. replace (map slot_table (sealing lt l)) with (map part_table l).
  2: { rewrite <- (sealing_parts lt l) at 1. rewrite map_map. apply map_ext. intros [[[[[? ?] ?] ?] ?] ?]. reflexivity. }
  unfold eit_plan in P. apply bind_inv in P as (sv & _ & P). apply bind_inv in P as (lt' & _ & P). apply bind_inv in P as (l' & P & Q). injection Q as <- <-.
  apply plan_head in P as (x & r & -> & T). rewrite map_app, app_nth2; rewrite map_length, blanks_length; [|lia]. rewrite Nat.sub_diag. exact T.
Qed.
Lemma slot_tables t slots : eit_ok t -> Forall (fun s => slot_table s < 256) slots -> map (fun s => field s 0 8) (map (slot_section t) slots) = map slot_table slots.
Proof.
  intros H B. rewrite map_map. apply map_ext_in. intros s Hs. rewrite Forall_forall in B. specialize (B s Hs). destruct s as [[[[[tb n] a] b] c] g]. apply eit_tables; assumption.
Qed.
Lemma apart_schedule m t t' first items first' items' pid cc pid' cc' dst : eit_ok t -> eit_ok t' -> eit_fits (N.to_nat 4098) t -> eit_fits (N.to_nat 4098) t' ->
  Forall (item_exact eiti_descs) (eit_items t) -> Forall (item_exact eiti_descs) (eit_items t') -> 0x50 <= eit_table t <= 0x6F -> 0x50 <= eit_table t' <= 0x6F ->
  eit_items t = first :: items -> eit_items t' = first' :: items' -> (length (eit_items t) < N.to_nat 504)%nat -> (length (eit_items t') < N.to_nat 504)%nat ->
  pid < 8192 -> pid' < 8192 -> cc < 16 -> cc' < 16 -> (exists r, eit_demux m t pid cc dst = Ok r) -> eit_demux m t pid cc dst = eit_demux m t' pid' cc' dst -> pid = pid' /\ cc = cc' /\ t = t'.
Proof.
  intros H H' F F' X X' J J' W W' L L' P P' C C' [r O] E.
  destruct (eit_demux_schedule m t first items pid cc dst H W F J P C) as [S K], (eit_demux_schedule m t' first' items' pid' cc' dst H' W' F' J' P' C') as [S' K'].
  pose proof O as O'. rewrite E in O'. rewrite S in O. rewrite S' in O'.
  destruct (eit_plan m t first items) as [[lt l]| |] eqn:PL; [|discriminate|discriminate]. destruct (eit_plan m t' first' items') as [[lt' l']| |] eqn:PL'; [|discriminate|discriminate].
  clear O O'. specialize (K _ _ eq_refl). specialize (K' _ _ eq_refl). cbv zeta in S, S'.
  destruct (sched_plan m t first items pid cc dst H W F J P C lt l PL) as (_ & D2 & _ & _ & _ & _ & D7). destruct (sched_plan m t' first' items' pid' cc' dst H' W' F' J' P' C' lt' l' PL') as (_ & D2' & _ & _ & _ & _ & D7').
  pose proof (seen_few t _ _ _ J (D7 L)) as (_ & B & V). pose proof (seen_few t' _ _ _ J' (D7' L')) as (_ & B' & V').
  assert (N1 : map (slot_section t) (sealing lt l) <> []) by (destruct (sealing lt l); [cbn in D2; congruence|discriminate]).
  rewrite E in S. destruct (sends_apart _ _ _ _ _ dst _ _ S S') as (Y1 & Y2 & Z); try assumption. split; [exact Y1|]. split; [exact Y2|]. subst pid' cc'.
  destruct (eit_schedule_seen Debug t first items lt l pid cc H W F J P C X m PL psi_default eit_default) as [q R].
  destruct (eit_schedule_seen Debug t' first' items' lt' l' pid cc H' W' F' J' P C X' m PL' psi_default eit_default) as [q' R'].
  cbv zeta in R, R'. rewrite Z in R. rewrite R in R'. apply ok_snd in R'. rewrite V, V', D2, D2' in R'. 
  assert (G : eit_items t = eit_items t') by (injection R'; intros; assumption). assert (G1 : first = first') by (rewrite W, W' in G; exact (cons_hd _ _ _ _ G)). subst first'.
  apply (f_equal (fun l => nth (N.to_nat (segment first + 1)) (map (fun s => field s 0 8) l) 0)) in Z. cbv beta in Z.
  rewrite (slot_tables t _ H), (slot_tables t' _ H') in Z.
  2: { eapply Forall_impl; [|exact B']. intros s Hs. cbv beta in Hs. revert Hs J'. clear. dlia. }
  2: { eapply Forall_impl; [|exact B]. intros s Hs. cbv beta in Hs. revert Hs J. clear. dlia. }
  rewrite (plan_table _ _ _ _ _ _ PL), (plan_table _ _ _ _ _ _ PL') in Z.
  exact (eit_added _ _ _ _ Z R').
Qed.

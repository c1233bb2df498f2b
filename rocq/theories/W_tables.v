(** Tables end to end: what is sent, and what a receiver makes of it. *)
From Coq Require Import Sorting.Sorted.
From Verif Require Import Prelude Layout Facts Facts2 S_ts S_crc S_utils S_psi M_bytes M_ts M_crc M_utils M_psi M_drive M_recv M_desc S_desc
  M_tables S_tables P_bytes P_crc P_utils P_psi P_mux P_mux2 P_sect P_mux3 P_desc P_desc2 P_desc3 W_psi W_desc P_tab P_tab2 P_tab3 P_tab4 P_tab5
  P_eit P_eit2 P_eit3 P_tot.

Lemma grouping_intro {A} (items g0 : list A) gs : items = g0 ++ concat gs -> Forall (fun g => g <> []) gs -> grouping items (g0 :: gs).
Proof. intros -> H. split; [reflexivity|]. split; [discriminate|exact H]. Qed.
Lemma pred_len {A} (x : A) l : N.of_nat (length (x :: l) - 1) = N.of_nat (length l).
Proof. cbn [length]. f_equal. lia. Qed.

(** sections that a sender emits and a receiver turns into the table *)
Definition sends (dm : res (N * list N)) (pid cc : N) (dst : list N) (ss : list (list N)) : Prop :=
  dm = Ok (next_cc pid cc ss, dst ++ concat (stream pid cc ss)).

Lemma sdt_whole m t pid cc dst : sdt_ok t -> sdt_fits (N.to_nat 4098) t -> Forall (item_exact sdti_descs) (sdt_items t) ->
  sdt_table t = 0x42 \/ sdt_table t = 0x46 -> pid < 8192 -> cc < 16 ->
  exists groups, grouping (sdt_items t) groups /\ let ss := numbered (sdt_section t (N.of_nat (length groups - 1))) 0 groups in
    sends (sdt_demux m t pid cc dst) pid cc dst ss /\
    forall m' p old, exists q, receive m' (sdt_parse m') p old (stream pid cc ss) = Ok (q, sdt_add old t).
Proof.
  intros H F X T Hp Hc. destruct (sdt_demux_spec m t pid cc dst H F Hp Hc) as (g0 & gs & E & S & D). cbv zeta in D. destruct D as [D K].
  exists (g0 :: gs). split; [apply grouping_intro; [assumption|apply S]|]. cbv zeta. rewrite pred_len. split; [exact D|].
  intros m' p old. apply (receive_stream m' _ pid (sdt_quiet m') (sdt_blind m')); [assumption|assumption|]. apply sdt_recover; assumption.
Qed.
Lemma nit_whole m t pid cc dst : nit_ok t -> nit_fits (N.to_nat 4098) t -> loop_exact (nit_descs t) -> Forall (item_exact niti_descs) (nit_items t) ->
  nit_table t = 0x40 \/ nit_table t = 0x41 -> pid < 8192 -> cc < 16 ->
  exists groups, grouping (nit_items t) groups /\ let ss := numbered (nit_section t (N.of_nat (length groups - 1))) 0 groups in
    sends (nit_demux m t pid cc dst) pid cc dst ss /\
    forall m' p old, exists q, receive m' (nit_parse m') p old (stream pid cc ss) = Ok (q, nit_add old t).
Proof.
  intros H F Y X T Hp Hc. destruct (nit_demux_spec m t pid cc dst H F Hp Hc) as (g0 & gs & E & S & D). cbv zeta in D. destruct D as [D K].
  exists (g0 :: gs). split; [apply grouping_intro; [assumption|apply S]|]. cbv zeta. rewrite pred_len. split; [exact D|].
  intros m' p old. apply (receive_stream m' _ pid (nit_quiet m') (nit_blind m')); [assumption|assumption|]. apply nit_recover; assumption.
Qed.
Lemma pmt_whole m t pid cc dst : pmt_ok t -> pmt_fits (N.to_nat 4098) t -> pid < 8192 -> cc < 16 ->
  exists groups, grouping (pmt_items t) groups /\ let ss := numbered (pmt_section t (N.of_nat (length groups - 1))) 0 groups in
    sends (pmt_demux m t pid cc dst) pid cc dst ss /\
    (pmt_descs t = [] -> Forall (item_exact pmti_descs) (pmt_items t) ->
     forall m' p old, exists q, receive m' (pmt_parse m') p old (stream pid cc ss) = Ok (q, pmt_add old t)).
Proof.
  intros H F Hp Hc. destruct (pmt_demux_spec m t pid cc dst H F Hp Hc) as (g0 & gs & E & S & D). cbv zeta in D. destruct D as [D K].
  exists (g0 :: gs). split; [apply grouping_intro; [assumption|apply S]|]. cbv zeta. rewrite pred_len. split; [exact D|].
  intros Y X m' p old. apply (receive_stream m' _ pid (pmt_quiet m') (pmt_blind m')); [assumption|assumption|]. apply pmt_recover; assumption.
Qed.
Lemma pat_whole m t pid cc dst : pat_ok t -> pid < 8192 -> cc < 16 -> let s := pat_section t (firstn 253 (pat_items t)) in
  sends (pat_demux m t pid cc dst) pid cc dst [s] /\
  forall m' p old, exists q, receive m' (pat_parse m') p old (stream pid cc [s]) =
    Ok (q, pat_add old (mkPat (pat_version t) (pat_tsid t) (firstn 253 (pat_items t)))).
Proof.
  intros H Hp Hc s. destruct (pat_demux_spec m t pid cc dst H Hp Hc) as (D & K & _). fold s in D, K. split; [exact D|].
  intros m' p old. apply (receive_stream m' _ pid (pat_quiet m') (pat_blind m')); [constructor; [exact K|constructor]|assumption|].
  apply pat_recover; [assumption| |assumption]. destruct H as (_ & _ & H3). rewrite <- (firstn_skipn 253 (pat_items t)) in H3. apply Forall_app in H3. tauto.
Qed.
Lemma tot_whole m t pid cc dst : tot_time t < MJD_END -> loop_ok (tot_descs t) -> (length (wire (tot_descs t)) <= N.to_nat 4084)%nat ->
  pid < 8192 -> cc < 16 ->
  sends (tot_demux m t pid cc dst) pid cc dst [tot_bytes t] /\
  (loop_exact (tot_descs t) -> forall m' p old, exists q, receive m' (tot_parse m') p old (stream pid cc [tot_bytes t]) = Ok (q, tot_add old t)).
Proof.
  intros H1 H2 H3 Hp Hc. destruct (tot_demux_spec m t pid cc dst) as [D K]; try assumption. split; [exact D|].
  intros X m' p old. apply (receive_stream m' _ pid (tot_quiet m') (tot_blind m')); [constructor; [exact K|constructor]|assumption|].
  apply tot_recover; assumption.
Qed.

(** ** EIT *)
Lemma pf_whole m t pid cc dst : eit_ok t -> eit_fits (N.to_nat 4098) t -> eit_table t = 0x4E \/ eit_table t = 0x4F ->
  (length (eit_items t) <= 256)%nat -> pid < 8192 -> cc < 16 ->
  let last := N.of_nat (length (eit_items t) - 1) in
  let ss := numbered (fun i g => eit_section t (eit_table t) (N.of_nat i) last last (eit_table t) [g]) 0 (eit_items t) in
  sends (eit_demux m t pid cc dst) pid cc dst ss /\
  (eit_items t <> [] -> Forall (item_exact eiti_descs) (eit_items t) ->
   forall m' p old, exists q, receive m' (eit_parse m') p old (stream pid cc ss) = Ok (q, eit_add old t)).
Proof.
  intros H F T L Hp Hc last ss. destruct (eit_pf_demux m t pid cc dst H F T L Hp Hc) as [D K]. fold last in D, K. fold ss in D, K.
  split; [exact D|]. intros N0 X m' p old.
  apply (receive_stream m' _ pid (eit_quiet m') (eit_blind m')); [assumption|assumption|]. apply eit_pf_recover; assumption.
Qed.

Lemma plan_ends m : forall items next tb sec cur, plan m items next tb sec cur <> Hang.
Proof.
  assert (A : forall w a b, addw w m a b <> Hang) by (intros w a b; unfold addw; destruct (_ <? _); [|destruct m]; discriminate).
  induction items as [|i items IH]; intros next tb sec cur; cbn [plan]; [discriminate|].
  destruct (next <=? eiti_start i).
  - destruct (addw U64 m next SEG_DURATION) as [nx| |] eqn:E; cbn [bind]; [|discriminate|exfalso; eapply A; eassumption].
    destruct (sec / 8 * 8 =? 248).
    + destruct (addw U8 m tb 1) as [tb'| |] eqn:E2; cbn [bind]; [|discriminate|exfalso; eapply A; eassumption].
      specialize (IH nx tb' 0 (tb', 0, [i])). destruct (plan _ _ _ _ _ _); cbn [bind]; congruence.
    + destruct (addw U8 m (sec / 8 * 8) 8) as [s| |] eqn:E2; cbn [bind]; [|discriminate|exfalso; eapply A; eassumption].
      specialize (IH nx tb s (tb, s, [i])). destruct (plan _ _ _ _ _ _); cbn [bind]; congruence.
  - destruct (big i (part_items cur)); [|apply IH].
    destruct (addw U8 m sec 1) as [s| |] eqn:E; cbn [bind]; [|discriminate|exfalso; eapply A; eassumption].
    specialize (IH next tb s (tb, s, [i])). destruct (plan _ _ _ _ _ _); cbn [bind]; congruence.
Qed.
Lemma eit_plan_ends m t first items : eit_plan m t first items <> Hang.
Proof.
  unfold eit_plan. assert (A : forall w a b, addw w m a b <> Hang) by (intros w a b; unfold addw; destruct (_ <? _); [|destruct m]; discriminate).
  destruct (subw U64 m _ _) as [sv| |] eqn:E; cbn [bind]; [|discriminate|].
  - destruct (addw U8 m _ _) as [lt| |] eqn:E2; cbn [bind]; [|discriminate|exfalso; eapply A; eassumption].
    pose proof (plan_ends m (first :: items) (midnight first + 10800 * (segment first + 1) + 10800) (N.land (eit_table t) 240)
      (8 * (segment first + 1)) (eit_table t, 8 * (segment first + 1), [])) as P. destruct (plan _ _ _ _ _ _); cbn [bind]; congruence.
  - exfalso. revert E. unfold subw. destruct (_ <=? _); [|destruct m]; discriminate.
Qed.
Lemma eit_plan_release t first items : exists lt l, eit_plan Release t first items = Ok (lt, l).
Proof.
  unfold eit_plan.
  assert (S : forall w a b, exists c, subw w Release a b = Ok c) by (intros w a b; unfold subw; destruct (_ <=? _); eexists; reflexivity).
  assert (A : forall w a b, exists c, addw w Release a b = Ok c) by (intros w a b; unfold addw; destruct (_ <? _); eexists; reflexivity).
  destruct (S U64 (eiti_start (last items first)) (midnight first)) as [sv ->]. cbn [bind].
  destruct (A U8 (N.land (eit_table t) 240) (cast U8 (sv / 10800 / 32))) as [lt ->]. cbn [bind].
  destruct (plan_release (first :: items) (midnight first + 10800 * (segment first + 1) + 10800) (N.land (eit_table t) 240)
      (8 * (segment first + 1)) (eit_table t, 8 * (segment first + 1), [])) as [l ->]. cbn [bind]. eauto.
Qed.

(** the sections of a schedule *)
Definition slot_num (s : slot) : N := let '(_, n, _, _, _, _) := s in n.
Definition slot_last (s : slot) : N := let '(_, _, l, _, _, _) := s in l.
Definition slot_seg (s : slot) : N := let '(_, _, _, l, _, _) := s in l.
Definition slot_lt (s : slot) : N := let '(_, _, _, _, l, _) := s in l.

(** last_section_number runs backwards from the last section of each table_id *)
Fixpoint lasts_ok (l : list slot) : Prop :=
  match l with
  | [] => True
  | s :: r => slot_last s = match r with s' :: _ => if slot_table s' =? slot_table s then slot_last s' else slot_num s | [] => slot_num s end /\ lasts_ok r
  end.
Lemma seal_lasts lt : forall rl table last acc, (forall s r, acc = s :: r -> slot_table s = table /\ slot_last s = last) ->
  (acc = [] -> table = 0) -> Forall (fun x => 0 < part_table x) rl -> lasts_ok acc -> lasts_ok (rev (seal lt rl table last) ++ acc).
Proof.
  induction rl as [|[[tb n] g] rl IH]; intros table last acc H1 H2 F HA; [exact HA|]. inversion F as [|? ? F1 F2]; subst. cbn [part_table] in F1.
  cbn [seal rev]. rewrite <- app_assoc. cbn [app]. apply IH; [|discriminate|assumption|].
  - intros s r E. injection E as <- _. split; reflexivity.
  - cbn [lasts_ok]. split; [|assumption]. cbn [slot_last slot_num slot_table]. destruct acc as [|s r].
    + rewrite (H2 eq_refl). destruct (N.eqb_spec tb 0); [lia|reflexivity].
    + destruct (H1 s r eq_refl) as [-> ->]. rewrite N.eqb_sym. destruct (tb =? table); reflexivity.
Qed.
Lemma sealing_lasts lt l : Forall (fun x => 0 < part_table x) l -> lasts_ok (sealing lt l).
Proof.
  intros F. unfold sealing. rewrite <- (app_nil_r (rev (seal lt (rev l) 0 0))). apply seal_lasts; [discriminate|reflexivity|apply Forall_rev; assumption|exact I].
Qed.
Lemma seal_own lt : forall rl table last, Forall (fun s => slot_seg s = slot_num s /\ slot_lt s = lt) (seal lt rl table last).
Proof. induction rl as [|[[tb n] g] rl IH]; intros table last; [constructor|]. cbn [seal]. constructor; [split; reflexivity|apply IH]. Qed.
Lemma sealing_own lt l : Forall (fun s => slot_seg s = slot_num s /\ slot_lt s = lt) (sealing lt l).
Proof. unfold sealing. apply Forall_rev, seal_own. Qed.

Lemma plan_first m first items next tb0 tb s l : eiti_start first < next -> s + 1 < 256 ->
  plan m (first :: items) next tb0 s (tb, s, []) = Ok l ->
  exists pre x post g, l = pre ++ x :: post /\ Forall (fun x => part_items x = []) pre /\ part_items x = first :: g /\ (part_num x = s \/ part_num x = s + 1).
Proof.
  intros L Hs E. cbn [plan part_items part_table part_num] in E. destruct (N.leb_spec next (eiti_start first)); [lia|].
  destruct (big first []).
  - rewrite addw_ok in E by (unfold U8; lia). cbn [bind] in E. apply bind_inv in E as (l' & E & E'). injection E' as <-.
    apply plan_head in E as (g & r & ->). cbn [part_table part_num part_items app].
    exists [(tb, s, [])], (tb0, s + 1, first :: g), r, g. repeat split; [constructor; [reflexivity|constructor]|right; reflexivity].
  - apply plan_head in E as (g & r & ->). cbn [part_table part_num part_items app].
    exists [], (tb, s, first :: g), r, g. repeat split; [constructor|left; reflexivity].
Qed.
Lemma eit_plan_first m t first items lt l : eit_plan m t first items = Ok (lt, l) ->
  exists pre x post g, l = pre ++ x :: post /\ Forall (fun x => part_items x = []) pre /\ part_items x = first :: g /\
    part_num x / 8 = eiti_start first mod 86400 / 10800 + 1.
Proof.
  unfold eit_plan. intros P. apply bind_inv in P as (sv & _ & P). apply bind_inv in P as (lt' & _ & P). apply bind_inv in P as (l' & P & Q).
  injection Q as <- <-. pose proof (segment_le first) as (S8 & M1 & M2 & M3).
  apply plan_first in P as (pre & x & post & g & -> & F & X & D); [|lia|lia].
  exists (blanks (N.to_nat (segment first + 1)) (N.land (eit_table t) 240) 0 ++ pre), x, post, g.
  split; [rewrite <- app_assoc; reflexivity|]. split; [|split; [assumption|]].
  - apply Forall_app. split; [|assumption]. eapply Forall_impl; [|apply blanks_tables]. intros y [_ Y]. exact Y.
  - rewrite <- segment_mod. clear - D. destruct D as [-> | ->]; dlia.
Qed.
Lemma slots_split lt l pre x post : l = pre ++ x :: post -> exists spre sx spost,
  sealing lt l = spre ++ sx :: spost /\ map slot_part spre = pre /\ slot_part sx = x.
Proof.
  intros E. pose proof (sealing_parts lt l) as P. rewrite E in P at 2. apply map_eq_app in P as (l1 & l2 & E1 & E2 & E3).
  destruct l2 as [|sx spost]; [discriminate|]. cbn [map] in E3. exists l1, sx, spost. split; [assumption|]. split; [assumption|congruence].
Qed.
Lemma slot_part_num s : slot_num s = part_num (slot_part s).
Proof. destruct s as [[[[[? ?] ?] ?] ?] ?]. reflexivity. Qed.

Definition key (x : part) : N := 256 * part_table x + part_num x.
Lemma rising_sorted : forall l p, rising p l -> Sorted N.lt (p :: map key l).
Proof.
  induction l as [|x l IH]; intros p H; [repeat constructor|]. cbn [rising] in H. destruct H as [H1 H2]. cbn [map].
  constructor; [apply IH; exact H2|]. constructor. exact H1.
Qed.
Lemma blanks_sorted tb l : forall n s, Sorted N.lt (map key l) -> (forall x r, l = x :: r -> key x = 256 * tb + s + 8 * N.of_nat n) ->
  Sorted N.lt (map key (blanks n tb s ++ l)).
Proof.
  induction n as [|n IH]; intros s S H; [exact S|]. cbn [blanks app map]. constructor; [apply IH; [assumption|]|].
  - intros x r E. rewrite (H x r E). lia.
  - destruct n as [|n]; cbn [blanks app map].
    + destruct l as [|x r]; [constructor|]. cbn [map]. constructor. rewrite (H x r eq_refl). unfold key. cbn [part_table part_num]. lia.
    + constructor. unfold key. cbn [part_table part_num]. lia.
Qed.
Lemma eit_plan_sorted t first items lt l : eit_table t < 256 -> eit_table t mod 16 = 0 -> eit_plan Debug t first items = Ok (lt, l) -> Sorted N.lt (map key l).
Proof.
  intros Ht H16. unfold eit_plan. intros P. apply bind_inv in P as (sv & _ & P). apply bind_inv in P as (lt' & _ & P). apply bind_inv in P as (l' & P & Q).
  injection Q as <- <-. assert (B : N.land (eit_table t) 240 = eit_table t) by (rewrite land_F0 by assumption; clear - H16; dlia). rewrite B in *.
  pose proof (segment_le first) as (S8 & _).
  apply plan_rising in P as (r & E & T & S & R); [|lia|reflexivity|reflexivity].
  rewrite E. apply blanks_sorted.
  - cbn [map]. replace (key (hd _ l')) with (256 * eit_table t + 8 * (segment first + 1)) by (unfold key; rewrite T, S; reflexivity). apply rising_sorted. exact R.
  - intros x r' E'. injection E' as <- _. unfold key. rewrite T, S. lia.
Qed.
Definition slot_key (s : slot) : N := 256 * slot_table s + slot_num s.
Lemma slot_keys lt l : map slot_key (sealing lt l) = map key l.
Proof. rewrite <- (sealing_parts lt l) at 2. rewrite map_map. apply map_ext. intros [[[[[? ?] ?] ?] ?] ?]. reflexivity. Qed.

Lemma sched_plan m t first items pid cc dst : eit_ok t -> eit_items t = first :: items -> eit_fits (N.to_nat 4098) t ->
  0x50 <= eit_table t <= 0x6F -> pid < 8192 -> cc < 16 ->
  forall lt l, eit_plan m t first items = Ok (lt, l) -> let slots := sealing lt l in
    sends (eit_demux m t pid cc dst) pid cc dst (map (slot_section t) slots) /\
    concat (map slot_items slots) = eit_items t /\
    (exists pre x post g, slots = pre ++ x :: post /\ Forall (fun s => slot_items s = []) pre /\ slot_items x = first :: g /\
       slot_num x / 8 = eiti_start first mod 86400 / 10800 + 1) /\
    Forall (fun s => slot_seg s = slot_num s) slots /\
    (m = Debug -> eit_table t mod 16 = 0 -> Sorted N.lt (map slot_key slots)) /\
    (forall n, (N.to_nat 4096 <= n)%nat -> eit_fits n t -> Forall (fun s => (length (slot_section t s) <= n)%nat) slots) /\
    ((length (eit_items t) < N.to_nat 504)%nat ->
       lasts_ok slots /\ Forall (fun s => eit_table t / 16 * 16 <= slot_table s < eit_table t / 16 * 16 + 16) slots /\
       (Forall (item_exact eiti_descs) (eit_items t) -> forall m' p old, exists q tb, eit_table t / 16 * 16 <= tb < eit_table t / 16 * 16 + 16 /\
          receive m' (eit_parse m') p old (stream pid cc (map (slot_section t) slots)) =
          Ok (q, eit_add old (mkEit tb (eit_version t) (eit_pnr t) (eit_tsid t) (eit_onid t) (eit_items t))))).
Proof.
  intros H E F R Hp Hc lt l P slots. subst slots. destruct (eit_demux_schedule m t first items pid cc dst H E F R Hp Hc) as [D K]. rewrite P in D.
  cbv zeta in D. specialize (K lt l P). pose proof (eit_plan_items _ _ _ _ _ _ P) as PI.
  assert (LO : forall x, N.land (eit_table t) 240 = x -> x = eit_table t / 16 * 16) by (intros x <-; apply land_F0; lia).
  split; [exact D|]. split; [rewrite slot_part_items, sealing_parts, E; exact PI|]. split; [|split; [|split; [|split]]].
  - destruct (eit_plan_first _ _ _ _ _ _ P) as (pre & x & post & g & El & FP & X & N8).
    destruct (slots_split lt l pre x post El) as (spre & sx & spost & S1 & S2 & S3). exists spre, sx, spost, g.
    split; [assumption|]. split; [|split].
    + rewrite <- S2 in FP. apply (proj1 (Forall_map _ _ _)) in FP. eapply Forall_impl; [|exact FP]. intros s Hs. cbv beta in Hs. rewrite slot_part_item. exact Hs.
    + rewrite slot_part_item, S3. exact X.
    + rewrite slot_part_num, S3. exact N8.
  - eapply Forall_impl; [|apply sealing_own]. intros s Hs. apply Hs.
  - intros -> H16. rewrite slot_keys. eapply eit_plan_sorted; [|exact H16|exact P]. lia.
  - intros n Hn Fn.
    assert (SM : Forall (small n) l).
    { unfold eit_plan in P. apply bind_inv in P as (sv & _ & P). apply bind_inv in P as (lt' & _ & P). apply bind_inv in P as (l' & P & Q). injection Q as <- <-.
      pose proof (segment_le first) as (S8 & _). apply Forall_app. split.
      - eapply Forall_impl; [|apply blanks_tables]. intros x [_ X]. unfold small. rewrite X. cbn [flat_map length]. lia.
      - apply (plan_ok m n Hn) in P; try lia.
        + eapply Forall_impl; [|exact P]. intros x X. apply X.
        + unfold eit_fits in Fn. rewrite E in Fn. exact Fn.
        + unfold small. cbn [part_items flat_map length]. lia.
        + apply (land_lt 8). reflexivity.
        + cbn [part_table]. lia.
        + cbn [part_num]. lia. }
    apply (forall_map_parts (small n) lt) in SM. eapply Forall_impl; [|exact SM]. intros s Hs. cbv beta in Hs. unfold small in Hs. rewrite <- slot_part_item in Hs.
    destruct s as [[[[[tb nn] a] b] c] g]. cbn [slot_section slot_items] in *. unfold eit_section. rewrite section_len, app_length, layout_length by reflexivity. tw. lia.
  - intros L. pose proof (eit_plan_tables _ _ _ _ _ _ P ltac:(lia)) as TB. rewrite <- E in TB. specialize (TB L). rewrite (LO _ eq_refl) in TB.
    set (b := eit_table t / 16 * 16) in *. assert (Hb : 0x50 <= b <= 0x60) by (subst b; clear - R; dlia).
    split; [|split].
    + apply sealing_lasts. eapply Forall_impl; [|exact TB]. intros x X. cbv beta in X. lia.
    + apply (forall_map_parts _ lt) in TB. eapply Forall_impl; [|exact TB]. intros s Hs. cbv beta in Hs. rewrite slot_part_table. exact Hs.
    + intros X m' p old.
      destruct (eit_schedule_recover m' t first items lt l old H E F X m P) as (x & Hx & PS).
      { eapply Forall_impl; [|exact TB]. intros x X'. cbv beta in X'. lia. }
      destruct (receive_stream m' _ pid (eit_quiet m') (eit_blind m') _ p old cc K Hc _ PS) as [q Eq].
      exists q, (part_table x). split; [|exact Eq]. rewrite Forall_forall in TB. apply TB, Hx.
Qed.

Lemma sched_debug t first items pid cc dst : eit_ok t -> eit_items t = first :: items -> eit_fits (N.to_nat 4098) t ->
  0x50 <= eit_table t <= 0x6F -> pid < 8192 -> cc < 16 ->
  eiti_start first / 86400 * 86400 <= eiti_start (last items first) ->
  eit_table t / 16 * 16 + (eiti_start (last items first) - eiti_start first / 86400 * 86400) / 10800 / 32 mod 256 < 256 ->
  (length (eit_items t) < 24)%nat \/
  ((length (eit_items t) < N.to_nat 504)%nat /\ (14 + length (flat_map eit_entry (eit_items t)) < N.to_nat 4092)%nat) ->
  exists r, eit_demux Debug t pid cc dst = Ok r.
Proof.
  intros H E F R Hp Hc H1 H2 H3. destruct (eit_demux_schedule Debug t first items pid cc dst H E F R Hp Hc) as [D _]. rewrite D.
  assert (G : exists lt l, eit_plan Debug t first items = Ok (lt, l)).
  { unfold eit_plan. rewrite subw_ok by exact H1. cbn [bind]. rewrite land_F0 by lia. unfold midnight at 1. fold (midnight first) in H1, H2.
    rewrite addw_ok by (unfold U8, cast; exact H2). cbn [bind].
    set (b := eit_table t / 16 * 16) in *. assert (Hb : 0x50 <= b <= 0x60) by (subst b; clear - R; dlia).
    pose proof (segment_le first) as (S8 & M1 & M2 & M3).
    assert (FS : Forall (fun i => eiti_start i < MJD_END) (first :: items)).
    { destruct H as (_ & _ & _ & _ & _ & H6). rewrite E in H6. eapply Forall_impl; [|exact H6]. intros i Hi. apply Hi. }
    assert (NX : midnight first + 10800 * (segment first + 1) + 10800 < 2 ^ 40).
    { inversion FS as [|? ? X _]; subst. unfold MJD_END in X. change (2 ^ 40) with 1099511627776. lia. }
    rewrite E in H3. destruct H3 as [H3|[H3 H4]].
    - destruct (plan_few (first :: items) (midnight first + 10800 * (segment first + 1) + 10800) b (8 * (segment first + 1)) (eit_table t, 8 * (segment first + 1), []) NX FS)
        as [l ->]; [lia|lia|]. cbn [bind]. eauto.
    - destruct (plan_light (first :: items) (midnight first + 10800 * (segment first + 1) + 10800) b (8 * (segment first + 1)) (eit_table t, 8 * (segment first + 1), []) NX FS)
        as [l ->]; [lia|lia| |cbn [bind]; eauto].
      unfold EIT_SECTION_SIZE. cbn [part_items]. change (length (flat_map eit_entry [])) with 0%nat. lia. }
  destruct G as (lt & l & ->). eexists. reflexivity.
Qed.
Lemma sched_unsorted t first items pid cc dst : eit_ok t -> eit_items t = first :: items -> eit_fits (N.to_nat 4098) t ->
  0x50 <= eit_table t <= 0x6F -> pid < 8192 -> cc < 16 ->
  eiti_start (last items first) < eiti_start first / 86400 * 86400 -> eit_demux Debug t pid cc dst = Panic.
Proof.
  intros H E F R Hp Hc H1. destruct (eit_demux_schedule Debug t first items pid cc dst H E F R Hp Hc) as [D _]. rewrite D.
  unfold eit_plan, subw. destruct (N.leb_spec (midnight first) (eiti_start (last items first))) as [L|L]; [|reflexivity].
  unfold midnight in L. lia.
Qed.

(** ** headers *)
Definition header_is (s : list N) (table ident version num last : N) : Prop :=
  field s 0 8 = table /\ field s 8 1 = 1 /\ (N.to_nat (field s 12 12) + 3)%nat = length s /\ field s 24 16 = ident /\
  field s 42 5 = version /\ field s 47 1 = 1 /\ field s 48 8 = num mod 256 /\ field s 56 8 = last mod 256.
Lemma section_header table dvb ident version num last rest : table < 2 ^ 8 -> ident < 2 ^ 16 -> version < 2 ^ 5 ->
  (length rest <= N.to_nat 4086)%nat -> header_is (section table dvb ident version num last rest) table ident version num last.
Proof.
  intros Ht Hi Hv L. unfold header_is. rewrite section_len. destruct (section_app table dvb ident version num last rest) as (h & c & Lh & Lc & -> & ->).
  repeat split; try ((erewrite field_at; [|reflexivity|reflexivity]); try reflexivity; try (apply N.mod_small; assumption)).
  change (2 ^ N.of_nat 12) with 4096. rewrite N.mod_small by lia. lia.
Qed.
Lemma numbered_nth {A} (f : nat -> A -> list N) : forall l n i s, nth_error (numbered f n l) i = Some s ->
  exists g, nth_error l i = Some g /\ s = f (n + i)%nat g.
Proof.
  induction l as [|x l IH]; intros n i s E; [destruct i; discriminate|]. destruct i as [|i]; cbn [numbered nth_error] in *.
  - injection E as <-. exists x. rewrite Nat.add_0_r. split; reflexivity.
  - destruct (IH _ _ _ E) as (g & E1 & ->). exists g. split; [assumption|]. f_equal. lia.
Qed.

(** ** sizes and numbers *)
Definition sized (n : nat) (ss : list (list N)) (table ident version : N) : Prop :=
  Forall (fun s => (length s <= n)%nat) ss /\
  forall i s, nth_error ss i = Some s -> header_is s table ident version (N.of_nat i) (N.of_nat (length ss - 1)).

Lemma fits_more_sdt t : sdt_fits (N.to_nat 1024) t -> sdt_fits (N.to_nat 4098) t.
Proof. apply Forall_impl. intros i H. lia. Qed.
Lemma fits_more_pmt t : pmt_fits (N.to_nat 1024) t -> pmt_fits (N.to_nat 4098) t.
Proof. intros [H1 H2]. split; [lia|]. eapply Forall_impl; [|exact H2]. intros i H. cbv beta in H. lia. Qed.
Lemma fits_more_nit t : nit_fits (N.to_nat 1024) t -> nit_fits (N.to_nat 4098) t.
Proof. intros [H1 H2]. split; [lia|]. eapply Forall_impl; [|exact H2]. intros i H. cbv beta in H. lia. Qed.

Lemma numbered_sized {A} (f : nat -> A -> list N) l table ident version n :
  (forall i g, In g l -> (i = 0%nat -> Some g = hd_error l) -> (i <> 0%nat -> In g (tl l)) ->
     header_is (f i g) table ident version (N.of_nat i) (N.of_nat (length l - 1)) /\ (length (f i g) <= n)%nat) ->
  sized n (numbered f 0 l) table ident version.
Proof.
  intros H.
  assert (G : forall i s, nth_error (numbered f 0 l) i = Some s ->
    header_is s table ident version (N.of_nat i) (N.of_nat (length l - 1)) /\ (length s <= n)%nat).
  { intros i s E. apply numbered_nth in E as (g & E & ->). cbn [Nat.add]. apply H.
    - eapply nth_error_In; eassumption.
    - intros ->. destruct l; [discriminate|]. symmetry. exact E.
    - intros Hi. destruct i; [congruence|]. destruct l; [discriminate|]. cbn [tl nth_error] in *. eapply nth_error_In; eassumption. }
  split.
  - apply Forall_forall. intros s Hs. apply In_nth_error in Hs as [i Hi]. apply G in Hi. apply Hi.
  - intros i s E. rewrite numbered_length. apply G in E. apply E.
Qed.

(** no section could have taken the first item of the next *)
Definition filled {A} (w : A -> list N) (n : nat) (ss : list (list N)) (groups : list (list A)) : Prop :=
  forall i s x r, nth_error ss i = Some s -> nth_error groups (S i) = Some (x :: r) -> (n < length s + length (w x))%nat.
Lemma full_nth {A} (w : A -> list N) n k1 : forall gs g k i g' x r, full w n k k1 g gs -> nth_error (g :: gs) i = Some g' ->
  nth_error gs i = Some (x :: r) -> (n < (if (i =? 0)%nat then k else k1) + length (flat_map w g') + length (w x))%nat.
Proof.
  induction gs as [|h gs IH]; intros g k i g' x r F E1 E2; [destruct i; discriminate|]. cbn [full] in F. destruct F as [F1 F2].
  destruct i as [|i]; cbn [nth_error Nat.eqb] in *.
  - injection E1 as ->. injection E2 as ->. exact F1.
  - specialize (IH h k1 i g' x r F2 E1 E2). destruct (i =? 0)%nat; exact IH.
Qed.
Lemma full_filled {A} (w : A -> list N) n k0 k1 (f : nat -> list A -> list N) g0 gs : full w n k0 k1 g0 gs ->
  (forall i g, length (f i g) = ((if (i =? 0)%nat then k0 else k1) + length (flat_map w g))%nat) ->
  filled w n (numbered f 0 (g0 :: gs)) (g0 :: gs).
Proof.
  intros F L i s x r E1 E2. apply numbered_nth in E1 as (g & E1 & ->). cbn [Nat.add]. rewrite L. cbn [nth_error] in E2.
  exact (full_nth w n k1 gs g0 k0 i g x r F E1 E2).
Qed.

Lemma sdt_sized m t pid cc dst : sdt_ok t -> sdt_fits (N.to_nat 1024) t -> pid < 8192 -> cc < 16 ->
  exists groups, grouping (sdt_items t) groups /\ let ss := numbered (sdt_section t (N.of_nat (length groups - 1))) 0 groups in
    sends (sdt_demux m t pid cc dst) pid cc dst ss /\ sized (N.to_nat 1024) ss (sdt_table t) (sdt_tsid t) (sdt_version t) /\ filled sdt_entry (N.to_nat 1024) ss groups.
Proof.
  intros H F Hp Hc. destruct (sdt_demux_spec m t pid cc dst H (fits_more_sdt t F) Hp Hc) as (g0 & gs & E & S & D). cbv zeta in D. destruct D as [D _].
  exists (g0 :: gs). split; [apply grouping_intro; [assumption|apply S]|]. cbv zeta. rewrite pred_len. split; [exact D|]. destruct H as (H1 & H2 & H3 & H4 & H5).
  unfold sdt_fits in F. rewrite E in F. destruct (split_le _ _ _ _ _ (N.to_nat 1024) S ltac:(lia) ltac:(lia) F) as [L0 L1].
  split; [rewrite <- (pred_len g0 gs); apply numbered_sized|eapply full_filled; [apply S|]; intros i g; unfold sdt_section; rewrite section_len, app_length, layout_length by reflexivity; tw; destruct (i =? 0)%nat; lia].
  intros i g Hg _ _. unfold sdt_section.
  assert (L : (15 + length (flat_map sdt_entry g) <= N.to_nat 1024)%nat).
  { destruct Hg as [<-|Hg]; [assumption|]. rewrite Forall_forall in L1. apply L1, Hg. }
  split; [apply section_header; try assumption|rewrite section_len]; rewrite app_length, layout_length by reflexivity; tw; lia.
Qed.
Lemma pmt_sized m t pid cc dst : pmt_ok t -> pmt_fits (N.to_nat 1024) t -> pid < 8192 -> cc < 16 ->
  exists groups, grouping (pmt_items t) groups /\ let ss := numbered (pmt_section t (N.of_nat (length groups - 1))) 0 groups in
    sends (pmt_demux m t pid cc dst) pid cc dst ss /\ sized (N.to_nat 1024) ss 0x02 (pmt_pnr t) (pmt_version t) /\ filled pmt_entry (N.to_nat 1024) ss groups.
Proof.
  intros H F Hp Hc. destruct (pmt_demux_spec m t pid cc dst H (fits_more_pmt t F) Hp Hc) as (g0 & gs & E & S & D). cbv zeta in D. destruct D as [D _].
  exists (g0 :: gs). split; [apply grouping_intro; [assumption|apply S]|]. cbv zeta. rewrite pred_len. split; [exact D|]. destruct H as (H1 & H2 & H3 & H4 & H5). destruct F as [F0 F].
  rewrite E in F. destruct (split_le _ _ _ _ _ (N.to_nat 1024) S F0 ltac:(lia) F) as [L0 L1].
  split; [rewrite <- (pred_len g0 gs); apply numbered_sized|eapply full_filled; [apply S|]; intros i g; unfold pmt_section; cbv zeta; rewrite section_len, !app_length, layout_length by reflexivity; tw; destruct (i =? 0)%nat; [|change (length (wire [])) with 0%nat]; lia].
  intros i g Hg Hz Hn. unfold pmt_section. cbv zeta.
  assert (L : (16 + length (wire (if (i =? 0)%nat then pmt_descs t else [])) + length (flat_map pmt_entry g) <= N.to_nat 1024)%nat).
  { destruct (Nat.eqb_spec i 0) as [I|I].
    - specialize (Hz I). cbn [hd_error] in Hz. injection Hz as ->. assumption.
    - specialize (Hn I). cbn [tl] in Hn. rewrite Forall_forall in L1. apply L1 in Hn. change (length (wire [])) with 0%nat. lia. }
  split; [apply section_header; try assumption; [reflexivity|]|rewrite section_len]; rewrite !app_length, layout_length by reflexivity; tw; lia.
Qed.
Lemma nit_sized m t pid cc dst : nit_ok t -> nit_fits (N.to_nat 1024) t -> pid < 8192 -> cc < 16 ->
  exists groups, grouping (nit_items t) groups /\ let ss := numbered (nit_section t (N.of_nat (length groups - 1))) 0 groups in
    sends (nit_demux m t pid cc dst) pid cc dst ss /\ sized (N.to_nat 1024) ss (nit_table t) (nit_network t) (nit_version t) /\ filled nit_entry (N.to_nat 1024) ss groups.
Proof.
  intros H F Hp Hc. destruct (nit_demux_spec m t pid cc dst H (fits_more_nit t F) Hp Hc) as (g0 & gs & E & S & D). cbv zeta in D. destruct D as [D _].
  exists (g0 :: gs). split; [apply grouping_intro; [assumption|apply S]|]. cbv zeta. rewrite pred_len. split; [exact D|]. destruct H as (H1 & H2 & H3 & H4 & H5). destruct F as [F0 F].
  rewrite E in F. destruct (split_le _ _ _ _ _ (N.to_nat 1024) S F0 ltac:(lia) F) as [L0 L1].
  split; [rewrite <- (pred_len g0 gs); apply numbered_sized|eapply full_filled; [apply S|]; intros i g; unfold nit_section; cbv zeta; rewrite section_len, !app_length, !layout_length by reflexivity; tw; destruct (i =? 0)%nat; [|change (length (wire [])) with 0%nat]; lia].
  intros i g Hg Hz Hn. unfold nit_section. cbv zeta.
  assert (L : (16 + length (wire (if (i =? 0)%nat then nit_descs t else [])) + length (flat_map nit_entry g) <= N.to_nat 1024)%nat).
  { destruct (Nat.eqb_spec i 0) as [I|I].
    - specialize (Hz I). cbn [hd_error] in Hz. injection Hz as ->. assumption.
    - specialize (Hn I). cbn [tl] in Hn. rewrite Forall_forall in L1. apply L1 in Hn. change (length (wire [])) with 0%nat. lia. }
  split; [apply section_header; try assumption|rewrite section_len]; rewrite !app_length, !layout_length by reflexivity; tw; lia.
Qed.
Lemma pat_sized m t pid cc dst : pat_ok t -> pid < 8192 -> cc < 16 ->
  exists ss, sends (pat_demux m t pid cc dst) pid cc dst ss /\ length ss = 1%nat /\ sized (N.to_nat 1024) ss 0x00 (pat_tsid t) (pat_version t).
Proof.
  intros H Hp Hc. destruct (pat_demux_spec m t pid cc dst H Hp Hc) as (D & _ & L). eexists. split; [exact D|]. split; [reflexivity|].
  destruct H as (H1 & H2 & H3). split; [constructor; [exact L|constructor]|]. intros i s E. destruct i as [|[|i]]; [|discriminate|discriminate].
  cbn [nth_error] in E. assert (s = pat_section t (firstn 253 (pat_items t))) by congruence. subst s.
  cbn [length Nat.sub]. change (N.of_nat 0) with 0. unfold pat_section in *.
  apply (section_header 0 0 (pat_tsid t) (pat_version t) 0 0); [reflexivity|assumption|assumption|]. rewrite section_len in L. lia.
Qed.
Lemma pf_sized m t pid cc dst : eit_ok t -> eit_fits (N.to_nat 4096) t -> eit_table t = 0x4E \/ eit_table t = 0x4F ->
  (length (eit_items t) <= 256)%nat -> pid < 8192 -> cc < 16 ->
  exists ss, sends (eit_demux m t pid cc dst) pid cc dst ss /\ length ss = length (eit_items t) /\
    sized (N.to_nat 4096) ss (eit_table t) (eit_pnr t) (eit_version t).
Proof.
  intros H F T L Hp Hc. assert (F' : eit_fits (N.to_nat 4098) t) by (eapply Forall_impl; [|exact F]; intros i Hi; cbv beta in Hi; lia).
  destruct (pf_whole m t pid cc dst H F' T L Hp Hc) as [D _]. eexists. split; [exact D|]. split; [apply numbered_length|].
  destruct H as (H1 & H2 & H3 & H4 & H5 & H6). apply numbered_sized. intros i g Hg _ _. unfold eit_section.
  unfold eit_fits in F. rewrite Forall_forall in F. specialize (F _ Hg). cbv beta in F.
  split; [apply section_header; try assumption|rewrite section_len]; rewrite app_length, layout_length by reflexivity; cbn [flat_map]; rewrite app_nil_r; tw; lia.
Qed.

(** Property theorems C49-C51: EIT. Specification: S_tables. *)
From Coq Require Import Sorting.Sorted.
From Verif Require Import Prelude Layout S_ts S_crc S_utils S_psi M_text M_psi M_drive M_recv M_desc S_desc M_tables S_tables Props_tables.
From Verif Require P_tab2 P_tab3 P_eit P_eit2 P_eit3 P_eit4 W_tables W_eit P_desc.

(** * C49: present/following, one event per section *)
Theorem C49_pf : forall m t pid cc dst, eit_ok t -> eit_fits (N.to_nat 4098) t -> eit_table t = 0x4E \/ eit_table t = 0x4F ->
  (length (eit_items t) <= 256)%nat -> pid < 8192 -> cc < 16 ->
  let last := N.of_nat (length (eit_items t) - 1) in
  let ss := numbered (fun i g => eit_section t (eit_table t) (N.of_nat i) last last (eit_table t) [g]) 0 (eit_items t) in
  sends (eit_demux m t pid cc dst) pid cc dst ss /\
  (eit_items t <> [] -> Forall (item_exact eiti_descs) (eit_items t) ->
   forall m' p old, exists q, receive m' (eit_parse m') p old (stream pid cc ss) = Ok (q, eit_add old t)).
Proof. exact W_tables.pf_whole. Qed.
Print Assumptions C49_pf.
Theorem C49_recovered : forall m t pid cc dst, eit_ok t -> eit_fits (N.to_nat 4098) t -> eit_table t = 0x4E \/ eit_table t = 0x4F ->
  (0 < length (eit_items t) <= 256)%nat -> Forall (item_exact eiti_descs) (eit_items t) -> pid < 8192 -> cc < 16 ->
  exists ss, sends (eit_demux m t pid cc dst) pid cc dst ss /\ length ss = length (eit_items t) /\
  forall m' p, exists q, receive m' (eit_parse m') p eit_default (stream pid cc ss) = Ok (q, t).
Proof.
  intros m t pid cc dst H F T L X Hp Hc. destruct (C49_pf m t pid cc dst H F T (proj2 L) Hp Hc) as [S R]. eexists. split; [exact S|].
  split; [apply P_tab3.numbered_length|]. intros m' p.
  destruct (R ltac:(intros Z; rewrite Z in L; cbn in L; lia) X m' p eit_default) as [q E]. exists q. rewrite E. destruct t; reflexivity.
Qed.
Print Assumptions C49_recovered.
(** reading any sender's EIT section, present/following or schedule *)
Theorem C49_read : forall m old p s t, has p s -> 0x4E <= field s 0 8 <= 0x6F -> (18 <= length s)%nat -> eit_reads s t ->
  eit_parse m old p = Ok (eit_add old t).
Proof. exact P_tab2.eit_parse_section. Qed.
Print Assumptions C49_read.
Definition ev (n : N) (ds : list desc) (start : N) : eit_item := mkEitI n start 1800 4 0 ds.
Definition ex_4D : desc := D4D (mk4D (mkDvb 0 [0x65; 0x6E; 0x67]) (mkDvb 5 [0xbf; 0xe0]) (mkDvb 0 [0x54; 0x56])).
(** 2023-11-14 22:00:00 and 22:30:00 *)
Definition ex_pf : eit := mkEit 0x4E 5 100 1 2 [ev 1 [ex_4D] 1699999200; ev 2 [] 1700001000].
Example C49_ex : round (eit_demux Debug ex_pf) (eit_parse Debug) eit_default 18 = Some (2%nat, ex_pf).
Proof. vm_compute. reflexivity. Qed.

(** * C50: schedules *)
(** a section of a schedule: table, number, last number, last number of the segment, last table,
    events *)
Definition slot : Type := N * N * N * N * N * list eit_item.
Definition slot_table (s : slot) : N := let '(x, _, _, _, _, _) := s in x.
Definition slot_num (s : slot) : N := let '(_, x, _, _, _, _) := s in x.
Definition slot_last (s : slot) : N := let '(_, _, x, _, _, _) := s in x.
Definition slot_seg (s : slot) : N := let '(_, _, _, x, _, _) := s in x.
Definition slot_lt (s : slot) : N := let '(_, _, _, _, x, _) := s in x.
Definition slot_items (s : slot) : list eit_item := let '(_, _, _, _, _, g) := s in g.
Definition slot_section (t : eit) (s : slot) : list N := let '(tb, n, a, b, c, g) := s in eit_section t tb n a b c g.
(** table and number as one *)
Definition slot_key (s : slot) : N := 256 * slot_table s + slot_num s.
(** the first of the 16 tables *)
Definition base (t : eit) : N := eit_table t / 16 * 16.
(** 00:00 of the first event's day, and 3-hour segments from there *)
Definition midnight (first : eit_item) : N := eiti_start first / 86400 * 86400.
Definition seg_at (mid : N) (i : eit_item) : N := (eiti_start i - mid) / 10800.
(** a table that can be sent: every event on its own fits a section *)
Definition schedule (t : eit) (first : eit_item) (items : list eit_item) : Prop :=
  eit_ok t /\ eit_items t = first :: items /\ eit_fits (N.to_nat 4098) t /\ 0x50 <= eit_table t <= 0x6F.

(** the sections with a table_id of an EIT: only these are received *)
Definition visible (s : slot) : bool := (0x4E <=? slot_table s) && (slot_table s <=? 0x6F).
Definition no_slot : slot := (0, 0, 0, 0, 0, []).
(** either there is an overflow, and a build that checks for it aborts, or all events are sent, in
    order. The events of the visible sections are received, in order, from any receiver state; the
    table_id is that of the last of these sections. Below 504 events all sections are visible. *)
Theorem C50_schedule : forall m t first items pid cc dst, schedule t first items -> pid < 8192 -> cc < 16 ->
  (eit_demux m t pid cc dst = Panic /\ m = Debug) \/
  exists slots, sends (eit_demux m t pid cc dst) pid cc dst (map (slot_section t) slots) /\
    concat (map slot_items slots) = eit_items t /\
    (Forall (item_exact eiti_descs) (eit_items t) -> forall m' p old, let seen := filter visible slots in exists q,
        receive m' (eit_parse m') p old (stream pid cc (map (slot_section t) slots)) =
        Ok (q, eit_add old (mkEit (slot_table (last seen no_slot)) (eit_version t) (eit_pnr t) (eit_tsid t) (eit_onid t) (concat (map slot_items seen))))) /\
    ((length (eit_items t) < N.to_nat 504)%nat -> filter visible slots = slots /\ Forall (fun s => base t <= slot_table s < base t + 16) slots).
Proof.
  intros m t first items pid cc dst (H & E & F & R) Hp Hc.
  destruct (W_eit.sched_whole m t first items pid cc dst H E F R Hp Hc) as [D|(sl & D1 & D2 & _ & _ & _ & _ & _ & D7 & D8)]; [left; exact D|right].
  exists sl. split; [exact D1|]. split; [exact D2|]. split; [intros X m' p old; exact (D8 X m' p old)|]. intros L. destruct (D7 L) as (_ & D9 & D10). split; [exact D10|exact D9].
Qed.
Print Assumptions C50_schedule.
(** hence below 504 events nothing is lost *)
Theorem C50_lossless : forall m t first items pid cc dst cc' out, schedule t first items -> pid < 8192 -> cc < 16 ->
  (length (eit_items t) < N.to_nat 504)%nat -> Forall (item_exact eiti_descs) (eit_items t) ->
  eit_demux m t pid cc dst = Ok (cc', out) -> exists ps, out = dst ++ concat ps /\
  forall m' p old, exists q tb, base t <= tb < base t + 16 /\
    receive m' (eit_parse m') p old ps = Ok (q, eit_add old (mkEit tb (eit_version t) (eit_pnr t) (eit_tsid t) (eit_onid t) (eit_items t))).
Proof.
  intros m t first items pid cc dst cc' out H Hp Hc L X D.
  destruct (C50_schedule m t first items pid cc dst H Hp Hc) as [[D' _]|(sl & S1 & S2 & S3 & S4)]; [rewrite D in D'; discriminate|].
  rewrite S1 in D. injection D as _ <-. eexists. split; [reflexivity|]. intros m' p old. destruct (S3 X m' p old) as [q Q]. destruct (S4 L) as [V B]. rewrite V, S2 in Q.
  exists q, (slot_table (last sl no_slot)). split; [|exact Q]. rewrite Forall_forall in B. apply B. apply P_eit.last_in. intros ->. destruct H as (_ & E & _). rewrite E in S2. discriminate.
Qed.
Print Assumptions C50_lossless.
(** no overflow, so no abort: the last event is not before the first one's day, the tables
    suffice, and there are few or small events *)
Theorem C50_no_abort : forall t first items pid cc dst, schedule t first items -> pid < 8192 -> cc < 16 ->
  midnight first <= eiti_start (last items first) ->
  base t + seg_at (midnight first) (last items first) / 32 mod 256 < 256 ->
  (length (eit_items t) < 24)%nat \/
  ((length (eit_items t) < N.to_nat 504)%nat /\ (14 + length (flat_map eit_entry (eit_items t)) < N.to_nat 4092)%nat) ->
  exists r, eit_demux Debug t pid cc dst = Ok r.
Proof. intros t first items pid cc dst (H & E & F & R). exact (W_tables.sched_debug t first items pid cc dst H E F R). Qed.
Print Assumptions C50_no_abort.

Definition every3h (n : nat) : list eit_item := map (fun i => ev (N.of_nat i) [] (1700006400 + 10800 * N.of_nat i)) (seq 0 n).
Lemma every3h_ok tb n : tb < 256 -> (n <= N.to_nat 4000)%nat -> eit_ok (mkEit tb 0 1 1 1 (every3h n)) /\ eit_fits (N.to_nat 4098) (mkEit tb 0 1 1 1 (every3h n)).
Proof.
  intros Ht Hn. assert (A : Forall (fun i => eit_item_ok i /\ (18 + length (eit_entry i) <= N.to_nat 4098)%nat) (every3h n)).
  { apply Forall_forall. intros i Hi. apply in_map_iff in Hi as (k & <- & Hk). apply in_seq in Hk. split.
    - unfold eit_item_ok, ev. cbn [eiti_id eiti_start eiti_duration eiti_status eiti_ca eiti_descs]. unfold MJD_END.
      repeat split; try lia; try reflexivity; [constructor|vm_compute; lia].
    - unfold eit_entry. rewrite app_length, P_desc.layout_length by reflexivity. vm_compute. lia. }
  split.
  - repeat split; try assumption; try reflexivity. cbn [eit_items]. eapply Forall_impl; [|exact A]. intros i Hi. apply Hi.
  - unfold eit_fits. cbn [eit_items]. eapply Forall_impl; [|exact A]. intros i Hi. apply Hi.
Qed.
Definition arriving (t : eit) (first : eit_item) (items : list eit_item) : option nat :=
  match P_eit3.eit_plan Debug t first items with
  | Ok (_, l) => Some (length (concat (map P_eit2.part_items (filter (fun x => (0x4E <=? P_eit2.part_table x) && (P_eit2.part_table x <=? 0x6F)) l))))
  | _ => None
  end.
Lemma arriving_ok t first items n : schedule t first items -> Forall (item_exact eiti_descs) (eit_items t) -> arriving t first items = Some n ->
  exists cc' ps, eit_demux Debug t 18 0 [] = Ok (cc', concat ps) /\
    forall m p old, exists q u, receive m (eit_parse m) p old ps = Ok (q, u) /\ length (eit_items u) = (length (eit_items old) + n)%nat.
Proof.
  intros (H & E & F & R) X G. unfold arriving in G. destruct (P_eit3.eit_plan Debug t first items) as [[lt l]| |] eqn:P; try discriminate. injection G as G.
  destruct (P_eit3.eit_demux_schedule Debug t first items 18 0 [] H E F R eq_refl eq_refl) as [D _]. rewrite P in D.
  eexists. eexists. split; [exact D|]. intros m p old.
  destruct (P_eit5.eit_schedule_seen m t first items lt l 18 0 H E F R eq_refl eq_refl X Debug P p old) as [q Q].
  exists q. eexists. split; [exact Q|]. unfold eit_add. cbn [eit_items]. rewrite app_length. f_equal. rewrite <- G.
  rewrite P_eit3.slot_part_items. f_equal. f_equal. f_equal. rewrite <- (P_eit3.sealing_parts lt l) at 2. unfold P_eit5.seen.
  generalize (P_eit2.sealing lt l). intros sl. induction sl as [|s sl IH]; [reflexivity|]. cbn [map filter]. unfold P_eit5.visible at 1. rewrite P_eit3.slot_part_table.
  destruct (_ && _); cbn [map]; rewrite IH; reflexivity.
Qed.
(** beyond, events get lost: 520 events three hours apart, of which 512 arrive *)
Theorem C50_long_refuted : exists t first items, schedule t first items /\ Forall (item_exact eiti_descs) (eit_items t) /\
  StronglySorted (fun a b => eiti_start a < eiti_start b) (eit_items t) /\ length (eit_items t) = 520%nat /\
  exists cc' ps, eit_demux Debug t 18 0 [] = Ok (cc', concat ps) /\
    forall m p old, exists q u, receive m (eit_parse m) p old ps = Ok (q, u) /\ length (eit_items u) = (length (eit_items old) + 512)%nat.
Proof.
  assert (G : arriving (mkEit 0x60 0 1 1 1 (every3h 520)) (hd (ev 0 [] 0) (every3h 520)) (tl (every3h 520)) = Some 512%nat) by (vm_compute; reflexivity).
  assert (E : every3h 520 = hd (ev 0 [] 0) (every3h 520) :: tl (every3h 520)) by reflexivity.
  pose proof (every3h_ok 0x60 520 eq_refl ltac:(lia)) as HF.
  assert (X : Forall (item_exact eiti_descs) (every3h 520)).
  { apply Forall_forall. intros i Hi. apply in_map_iff in Hi as (k & <- & _). constructor. }
  assert (S : StronglySorted (fun a b => eiti_start a < eiti_start b) (every3h 520)).
  { unfold every3h. generalize 0%nat, 520%nat. intros a n. revert a. induction n as [|n IH]; intros a; [constructor|]. cbn [seq map].
    constructor; [apply IH|]. apply Forall_forall. intros i Hi. apply in_map_iff in Hi as (k & <- & Hk). apply in_seq in Hk. unfold ev. cbn [eiti_start]. lia. }
  assert (L : length (every3h 520) = 520%nat) by (unfold every3h; rewrite map_length, seq_length; reflexivity).
  revert G E HF X S L. generalize (every3h 520). intros ev3 G E [H F] X S L.
  exists (mkEit 0x60 0 1 1 1 ev3), (hd (ev 0 [] 0) ev3), (tl ev3).
  assert (SC : schedule (mkEit 0x60 0 1 1 1 ev3) (hd (ev 0 [] 0) ev3) (tl ev3)).
  { split; [exact H|]. split; [exact E|]. split; [exact F|]. cbn [eit_table]. lia. }
  split; [exact SC|]. split; [exact X|]. split; [exact S|]. split; [exact L|]. apply (arriving_ok _ _ _ _ SC X G).
Qed.
Print Assumptions C50_long_refuted.
(** 2023-11-15 00:00, 03:00, ... with descriptors *)
Definition ex_sched (starts : list N) : eit := mkEit 0x50 7 100 1 2 (map (fun s => ev s [ex_4D] (1700006400 + 3600 * s)) starts).
Example C50_ex : round (eit_demux Debug (ex_sched [0; 1; 3; 6; 9])) (eit_parse Debug) eit_default 18 = Some (4%nat, ex_sched [0; 1; 3; 6; 9]).
Proof. vm_compute. reflexivity. Qed.

(** * C51: placement *)
(** the standard: an event is in the segment of its start time *)
Definition placed (t : eit) (first : eit_item) (slots : list slot) : Prop :=
  forall s i, In s slots -> In i (slot_items s) -> 32 * slot_table s + slot_num s / 8 = 32 * base t + seg_at (midnight first) i.
(** violated by every schedule that is sent: the first event is one segment late *)
Theorem C51_placed_refuted : forall m t first items pid cc dst, schedule t first items -> pid < 8192 -> cc < 16 ->
  (eit_demux m t pid cc dst = Panic /\ m = Debug) \/
  exists slots, sends (eit_demux m t pid cc dst) pid cc dst (map (slot_section t) slots) /\ concat (map slot_items slots) = eit_items t /\
    (exists pre x post g, slots = pre ++ x :: post /\ Forall (fun s => slot_items s = []) pre /\ slot_items x = first :: g /\
       slot_num x / 8 = seg_at (midnight first) first + 1) /\
    ~ placed t first slots.
Proof.
  intros m t first items pid cc dst (H & E & F & R) Hp Hc.
  destruct (W_eit.sched_whole m t first items pid cc dst H E F R Hp Hc) as [D|(sl & D1 & D2 & (pre & x & post & g & D3 & D4 & D5 & D6) & _)]; [left; exact D|right].
  assert (SE : eiti_start first mod 86400 / 10800 = seg_at (midnight first) first) by (symmetry; apply P_eit3.segment_mod).
  rewrite SE in D6.
  exists sl. split; [exact D1|]. split; [exact D2|]. split; [exists pre, x, post, g; auto|].
  intros P. specialize (P x first). rewrite D3 in P. specialize (P ltac:(apply in_or_app; right; left; reflexivity)).
  change W_tables.slot_num with slot_num in D6. change P_eit.slot_items with slot_items in D5. rewrite D5 in P. specialize (P (or_introl eq_refl)).
  rewrite D6 in P. revert P. clear. generalize (slot_table x), (seg_at (midnight first) first), (base t). intros a b c. lia.
Qed.
Print Assumptions C51_placed_refuted.

(** where the events really go: positions are section numbers plus 256 per table; [k] is the
    segment up to which events go to the current section, [used] the bytes in it *)
Fixpoint placing (mid q k : N) (used : nat) (items : list eit_item) : list N :=
  match items with
  | [] => []
  | i :: r =>
    let n := length (eit_entry i) in
    if k <? seg_at mid i then let q' := q / 8 * 8 + 8 in q' :: placing mid q' (k + 1) (14 + n) r
    else if (N.to_nat 4092 <=? used + n)%nat then q + 1 :: placing mid (q + 1) k (14 + n) r
    else q :: placing mid q k (used + n) r
  end.
(** per section also: its segment's last number is its own; last_table_id is that of the last
    event's segment; numbers rise; the last number of a table is the number of its last section *)
Fixpoint lasts_ok (l : list slot) : Prop :=
  match l with
  | [] => True
  | s :: r => slot_last s = match r with s' :: _ => if slot_table s' =? slot_table s then slot_last s' else slot_num s | [] => slot_num s end /\ lasts_ok r
  end.
Definition last_table (t : eit) (first last : eit_item) : N := (base t + seg_at (midnight first) last / 32 mod 256) mod 256.
Theorem C51_sections : forall t first items pid cc dst, schedule t first items -> eit_table t mod 16 = 0 -> pid < 8192 -> cc < 16 ->
  eit_demux Debug t pid cc dst = Panic \/
  exists slots, sends (eit_demux Debug t pid cc dst) pid cc dst (map (slot_section t) slots) /\ concat (map slot_items slots) = eit_items t /\
    Forall (fun s => slot_seg s = slot_num s) slots /\
    (midnight first <= eiti_start (last items first) -> Forall (fun s => slot_lt s = last_table t first (last items first)) slots) /\
    Sorted N.lt (map slot_key slots) /\
    (flat_map (fun s => map (fun _ => slot_key s) (slot_items s)) slots =
       let k := seg_at (midnight first) first + 1 in placing (midnight first) (256 * eit_table t + 8 * k) k 14 (eit_items t)) /\
    ((length (eit_items t) < N.to_nat 504)%nat -> lasts_ok slots /\ Forall (fun s => base t <= slot_table s < base t + 16) slots).
Proof.
  intros t first items pid cc dst (H & E & F & R) H16 Hp Hc.
  destruct (W_eit.sched_whole Debug t first items pid cc dst H E F R Hp Hc) as [D|(sl & D1 & D2 & _ & D4 & D5 & D6 & _ & D8 & _)]; [left; apply D|right].
  exists sl. split; [exact D1|]. split; [exact D2|]. split; [exact D4|]. split; [exact D5|]. destruct (D6 eq_refl H16) as [D9 D10].
  split; [exact D9|]. split; [exact D10|]. intros L. destruct (D8 L) as (D11 & D12 & _). split; [exact D11|exact D12].
Qed.
Print Assumptions C51_sections.

(** chronological events, no segment without an event between two of them *)
Fixpoint dense (mid : N) (prev : eit_item) (items : list eit_item) : Prop :=
  match items with [] => True | i :: r => eiti_start prev <= eiti_start i /\ seg_at mid i <= seg_at mid prev + 1 /\ dense mid i r end.
Definition load (P : eit_item -> bool) (items : list eit_item) : nat := length (flat_map eit_entry (filter P items)).
(** then nothing overflows and every event except those of the first segment is where the
    standard wants it, up to 64 days and while two successive segments have less than 16312 bytes *)
Theorem C51_dense : forall m t first items pid cc dst, schedule t first items -> eit_table t mod 16 = 0 -> pid < 8192 -> cc < 16 ->
  let mid := midnight first in
  dense mid first items -> seg_at mid (last items first) < 512 ->
  (forall k, (load (fun i => ((seg_at mid i =? k) || (seg_at mid i =? k + 1))%N) (eit_items t) < N.to_nat 16312)%nat) ->
  exists slots, sends (eit_demux m t pid cc dst) pid cc dst (map (slot_section t) slots) /\ concat (map slot_items slots) = eit_items t /\
    forall s i, In s slots -> In i (slot_items s) ->
      32 * slot_table s + slot_num s / 8 = 32 * eit_table t + N.max (seg_at mid i) (seg_at mid first + 1).
Proof.
  intros m t first items pid cc dst (H & E & F & R) H16 Hp Hc mid D1 D2 D3.
  destruct (W_eit.sched_gapless m t first items pid cc dst H E F R H16 Hp Hc D1 D2 D3) as (sl & (S1 & S2 & _) & S3).
  exists sl. split; [exact S1|]. split; [exact S2|exact S3].
Qed.
Print Assumptions C51_dense.

(** a gap is not skipped: events at 00:00, 01:00 and 12:00 are put into segments 1, 1 and 2 *)
Theorem C51_gap_refuted : exists t first items slots, schedule t first items /\ StronglySorted (fun a b => eiti_start a < eiti_start b) (eit_items t) /\
  sends (eit_demux Debug t 18 0 []) 18 0 [] (map (slot_section t) slots) /\
  exists s i, In s slots /\ In i (slot_items s) /\ seg_at (midnight first) i = 4 /\ slot_table s = eit_table t /\ slot_num s / 8 = 2.
Proof.
  exists (mkEit 0x50 0 1 1 1 [ev 1 [] 1700006400; ev 2 [] 1700010000; ev 3 [] 1700049600]), (ev 1 [] 1700006400), [ev 2 [] 1700010000; ev 3 [] 1700049600].
  exists [(0x50, 0, 16, 0, 0x50, []); (0x50, 8, 16, 8, 0x50, [ev 1 [] 1700006400; ev 2 [] 1700010000]); (0x50, 16, 16, 16, 0x50, [ev 3 [] 1700049600])].
  assert (I : forall n s, n < 2 ^ 16 -> s < MJD_END -> eit_item_ok (ev n [] s) /\ (18 + length (eit_entry (ev n [] s)) <= N.to_nat 4098)%nat).
  { intros n s Hn Hs. split; [|unfold eit_entry; rewrite app_length, P_desc.layout_length by reflexivity; vm_compute; lia].
    unfold eit_item_ok, ev. cbn [eiti_id eiti_start eiti_duration eiti_status eiti_ca eiti_descs]. repeat split; try assumption; try lia; [constructor|vm_compute; lia]. }
  assert (A : Forall (fun i => eit_item_ok i /\ (18 + length (eit_entry i) <= N.to_nat 4098)%nat) [ev 1 [] 1700006400; ev 2 [] 1700010000; ev 3 [] 1700049600]).
  { constructor; [apply I; reflexivity|]. constructor; [apply I; reflexivity|]. constructor; [apply I; reflexivity|constructor]. }
  split; [|split; [|split]].
  - split; [|split; [reflexivity|split]].
    + repeat split; try reflexivity. cbn [eit_items]. eapply Forall_impl; [|exact A]. intros i Hi. apply Hi.
    + unfold eit_fits. cbn [eit_items]. eapply Forall_impl; [|exact A]. intros i Hi. apply Hi.
    + cbn [eit_table]. lia.
  - cbn [eit_items]. repeat constructor.
  - unfold sends. vm_compute. reflexivity.
  - eexists. eexists. split; [right; right; left; reflexivity|]. split; [left; reflexivity|]. repeat split.
Qed.
Print Assumptions C51_gap_refuted.
(** a last event before the first event's day aborts (and wraps in a release build) *)
Theorem C51_unsorted_refuted : forall t first items pid cc dst, schedule t first items -> pid < 8192 -> cc < 16 ->
  eiti_start (last items first) < midnight first -> eit_demux Debug t pid cc dst = Panic.
Proof. intros t first items pid cc dst (H & E & F & R). exact (W_tables.sched_unsorted t first items pid cc dst H E F R). Qed.
Print Assumptions C51_unsorted_refuted.
(** segment_last_section_number: two sections in segment 1 that contradict each other *)
Definition ex_big (n s : N) : eit_item := ev n [DRaw (mkRaw 0x05 (repeat 7 250)); DRaw (mkRaw 0x05 (repeat 8 250)); DRaw (mkRaw 0x05 (repeat 9 250));
  DRaw (mkRaw 0x05 (repeat 7 250)); DRaw (mkRaw 0x05 (repeat 8 250)); DRaw (mkRaw 0x05 (repeat 9 250))] s.
Theorem C51_segment_last_refuted : exists t slots s s', sends (eit_demux Debug t 18 0 []) 18 0 [] (map (slot_section t) slots) /\
  In s slots /\ In s' slots /\ slot_table s = slot_table s' /\ slot_num s / 8 = slot_num s' / 8 /\ slot_seg s < slot_num s'.
Proof.
  exists (mkEit 0x50 0 1 1 1 [ex_big 1 1700006400; ex_big 2 1700006401; ex_big 3 1700006402]).
  exists [(0x50, 0, 9, 0, 0x50, []); (0x50, 8, 9, 8, 0x50, [ex_big 1 1700006400; ex_big 2 1700006401]); (0x50, 9, 9, 9, 0x50, [ex_big 3 1700006402])].
  eexists. eexists. split; [unfold sends; vm_compute; reflexivity|]. split; [right; left; reflexivity|]. split; [right; right; left; reflexivity|].
  repeat split.
Qed.
Print Assumptions C51_segment_last_refuted.
Example C51_ex : let t := ex_sched [0; 1; 3; 6; 9; 30] in
  option_map fst (round (eit_demux Debug t) (eit_parse Debug) eit_default 18) = Some 5%nat /\
  dense (midnight (ev 0 [ex_4D] 1700006400)) (ev 0 [ex_4D] 1700006400) (tl (eit_items (ex_sched [0; 1; 3; 6; 9]))).
Proof. split; [vm_compute; reflexivity|]. vm_compute. intuition discriminate. Qed.

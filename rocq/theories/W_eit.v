(** EIT schedules end to end. *)
From Coq Require Import Sorting.Sorted.
From Verif Require Import Prelude Layout Facts Facts2 S_ts S_crc S_utils S_psi M_bytes M_ts M_crc M_utils M_psi M_drive M_recv M_desc S_desc
  M_tables S_tables P_bytes P_crc P_utils P_psi P_mux P_mux2 P_sect P_mux3 P_desc P_desc2 P_desc3 W_psi W_desc P_tab P_tab2 P_tab3 P_tab4 P_tab5 P_eit P_eit2 P_eit3 W_tables P_eit4 P_eit5.

Definition slot_positions (slots : list slot) : list N := flat_map (fun s => map (fun _ => slot_key s) (slot_items s)) slots.
Lemma slot_positions_eq lt l : slot_positions (sealing lt l) = positions l.
Proof.
  rewrite <- (sealing_parts lt l) at 2. unfold slot_positions, positions. generalize (sealing lt l). intros slots.
  induction slots as [|s slots IH]; [reflexivity|]. cbn [flat_map map]. rewrite IH. f_equal.
  destruct s as [[[[[tb n] a] b] c] g]. cbn [slot_part slot_items part_items]. change (slot_key (tb, n, a, b, c, g)) with (key (tb, n, g)).
  generalize (key (tb, n, g)). intros k. clear. induction g as [|x g IH]; [reflexivity|]. cbn [map length repeat]. rewrite IH. reflexivity.
Qed.

Definition last_table (t : eit) (first last : eit_item) : N :=
  (eit_table t / 16 * 16 + (eiti_start last - eiti_start first / 86400 * 86400) / 10800 / 32 mod 256) mod 256.
Lemma eit_plan_lt m t first items lt l : eit_table t < 256 -> eit_plan m t first items = Ok (lt, l) ->
  eiti_start first / 86400 * 86400 <= eiti_start (last items first) -> lt = last_table t first (last items first).
Proof.
  intros Ht P L. unfold eit_plan in P. apply bind_inv in P as (sv & P1 & P). apply bind_inv in P as (lt' & P2 & P). apply bind_inv in P as (l' & _ & Q).
  injection Q as <- <-. rewrite subw_ok in P1 by exact L. injection P1 as <-. rewrite land_F0 in P2 by assumption. unfold last_table, midnight in *.
  unfold addw, cast, U8 in P2. set (x := eit_table t / 16 * 16 + _ / 10800 / 32 mod 256) in *.
  destruct (N.ltb_spec x 256) as [G|G]; [injection P2 as <-; symmetry; apply N.mod_small; assumption|]. destruct m; [discriminate|]. injection P2 as <-. reflexivity.
Qed.

Definition sched_facts (m : mode) (t : eit) (first : eit_item) (items : list eit_item) (pid cc : N) (dst : list N) (slots : list slot) : Prop :=
    sends (eit_demux m t pid cc dst) pid cc dst (map (slot_section t) slots) /\
    concat (map slot_items slots) = eit_items t /\
    (exists pre x post g, slots = pre ++ x :: post /\ Forall (fun s => slot_items s = []) pre /\ slot_items x = first :: g /\
       slot_num x / 8 = eiti_start first mod 86400 / 10800 + 1) /\
    Forall (fun s => slot_seg s = slot_num s) slots /\
    (eiti_start first / 86400 * 86400 <= eiti_start (last items first) -> Forall (fun s => slot_lt s = last_table t first (last items first)) slots) /\
    (m = Debug -> eit_table t mod 16 = 0 -> Sorted N.lt (map slot_key slots) /\
       slot_positions slots = let mid := eiti_start first / 86400 * 86400 in let k := (eiti_start first - mid) / 10800 + 1 in
         placing mid (256 * eit_table t + 8 * k) k 14 (eit_items t)) /\
    (forall n, (N.to_nat 4096 <= n)%nat -> eit_fits n t -> Forall (fun s => (length (slot_section t s) <= n)%nat) slots) /\
    ((length (eit_items t) < N.to_nat 504)%nat ->
       lasts_ok slots /\ Forall (fun s => eit_table t / 16 * 16 <= slot_table s < eit_table t / 16 * 16 + 16) slots /\ seen slots = slots) /\
    (Forall (item_exact eiti_descs) (eit_items t) -> forall m' p old, exists q,
       receive m' (eit_parse m') p old (stream pid cc (map (slot_section t) slots)) =
       Ok (q, eit_add old (mkEit (slot_table (last (seen slots) no_slot)) (eit_version t) (eit_pnr t) (eit_tsid t) (eit_onid t) (concat (map slot_items (seen slots)))))).
Lemma seen_few t slots (P Q : Prop) : 0x50 <= eit_table t <= 0x6F ->
  P /\ Forall (fun s => eit_table t / 16 * 16 <= slot_table s < eit_table t / 16 * 16 + 16) slots /\ Q ->
  P /\ Forall (fun s => eit_table t / 16 * 16 <= slot_table s < eit_table t / 16 * 16 + 16) slots /\ seen slots = slots.
Proof. intros R (A & B & _). split; [exact A|]. split; [exact B|]. apply (seen_all (eit_table t / 16 * 16)); [clear - R; dlia|exact B]. Qed.

Lemma sched_whole m t first items pid cc dst : eit_ok t -> eit_items t = first :: items -> eit_fits (N.to_nat 4098) t ->
  0x50 <= eit_table t <= 0x6F -> pid < 8192 -> cc < 16 ->
  (eit_demux m t pid cc dst = Panic /\ m = Debug) \/ exists slots, sched_facts m t first items pid cc dst slots.
Proof.
  intros H E F R Hp Hc. destruct (eit_demux_schedule m t first items pid cc dst H E F R Hp Hc) as [D _].
  pose proof (eit_plan_ends m t first items) as EN. pose proof (eit_plan_release t first items) as (lr & llr & ER).
  destruct (eit_plan m t first items) as [[lt l]| |] eqn:P; [right|left; split; [exact D|destruct m; [reflexivity|congruence]]|congruence].
  clear D. exists (sealing lt l). destruct (sched_plan m t first items pid cc dst H E F R Hp Hc lt l P) as (D1 & D2 & D3 & D4 & D5 & D6 & D7).
  split; [exact D1|]. split; [exact D2|]. split; [exact D3|]. split; [exact D4|]. split; [|split; [|split; [exact D6|split; [intros L; exact (seen_few t _ _ _ R (D7 L))|]]]].
  - intros L. rewrite <- (eit_plan_lt m t first items lt l) by (try exact P; try exact L; lia).
    eapply Forall_impl; [|apply (sealing_own lt l)]. intros s Hs. apply Hs.
  - intros Em H16. split; [apply D5; assumption|]. subst m. rewrite slot_positions_eq, E.
    exact (eit_plan_positions t first items lt l ltac:(lia) H16 P).
  - intros X m' p old. exact (eit_schedule_seen m' t first items lt l pid cc H E F R Hp Hc X m P p old).
Qed.

(** chronological, and no segment without events between two events *)
Fixpoint dense (mid : N) (prev : eit_item) (items : list eit_item) : Prop :=
  match items with [] => True | i :: r => eiti_start prev <= eiti_start i /\ seg_at mid i <= seg_at mid prev + 1 /\ dense mid i r end.
Lemma dense_gapless mid : forall items prev, dense mid prev items -> gapless mid (seg_at mid prev) items.
Proof.
  induction items as [|i items IH]; intros prev; [constructor|]. cbn [dense gapless]. intros (D1 & D2 & D3). split; [|apply IH; exact D3].
  split; [|exact D2]. unfold seg_at. apply N.div_le_mono; lia.
Qed.
Lemma last_any {A} (l : list A) : forall x y, l <> [] -> last l x = last l y.
Proof. induction l as [|a l IH]; intros x y H; [congruence|]. destruct l as [|b l]; [reflexivity|]. apply (IH x y). discriminate. Qed.
Lemma dense_last mid : forall items prev, dense mid prev items -> Forall (fun i => eiti_start i <= eiti_start (last items prev)) (prev :: items).
Proof.
  induction items as [|i items IH]; intros prev D; [constructor; [cbn [last]; lia|constructor]|]. cbn [dense] in D. destruct D as (D1 & D2 & D3).
  specialize (IH i D3). assert (E : last (i :: items) prev = last items i).
  { destruct items as [|j items]; [reflexivity|]. change (last (j :: items) prev = last (j :: items) i). apply last_any. discriminate. }
  rewrite E. inversion IH as [|? ? I1 I2]; subst. constructor; [lia|]. constructor; [exact I1|exact I2].
Qed.
Lemma load_le (P Q : eit_item -> bool) : (forall i, P i = true -> Q i = true) -> forall l, (load P l <= load Q l)%nat.
Proof.
  intros H. induction l as [|i l IH]; [reflexivity|]. rewrite !load_cons. specialize (H i). destruct (P i); [rewrite H by reflexivity; lia|destruct (Q i); lia].
Qed.

Lemma sched_gapless m t first items pid cc dst : eit_ok t -> eit_items t = first :: items -> eit_fits (N.to_nat 4098) t ->
  0x50 <= eit_table t <= 0x6F -> eit_table t mod 16 = 0 -> pid < 8192 -> cc < 16 ->
  let mid := eiti_start first / 86400 * 86400 in
  dense mid first items -> seg_at mid (last items first) < 512 ->
  (forall k, (load (fun i => ((seg_at mid i =? k) || (seg_at mid i =? k + 1))%N) (eit_items t) < LIM)%nat) ->
  exists slots, sched_facts m t first items pid cc dst slots /\
    forall s i, In s slots -> In i (slot_items s) ->
      32 * slot_table s + slot_num s / 8 = 32 * eit_table t + N.max (seg_at mid i) (seg_at mid first + 1).
Proof.
  intros H E F R H16 Hp Hc mid G G5 HL. pose proof (segment_le first) as (S8 & M1 & M2 & M3).
  assert (FS : Forall (fun i => eiti_start i < MJD_END) (first :: items)).
  { destruct H as (_ & _ & _ & _ & _ & H6). rewrite E in H6. eapply Forall_impl; [|exact H6]. intros i Hi. apply Hi. }
  change (segment first) with (seg_at mid first) in *. change (midnight first) with mid in *.
  pose proof (dense_last mid items first G) as DL. apply dense_gapless in G.
  assert (FB : Forall (fun i => seg_at mid i < 512) (first :: items)).
  { eapply Forall_impl; [|exact DL]. intros i Hi. cbv beta in Hi. eapply N.le_lt_trans; [|exact G5]. unfold seg_at. apply N.div_le_mono; lia. }
  assert (LM : mid <= eiti_start (last items first)) by (inversion DL; lia).
  assert (ST : eiti_start first < MJD_END) by (inversion FS; assumption).
  assert (B : N.land (eit_table t) 240 = eit_table t) by (rewrite land_F0 by lia; clear - H16; dlia).
  assert (B16 : eit_table t <= 96) by (clear - R H16; dlia).
  assert (P : exists l, plan Debug (first :: items) (mid + 10800 * (seg_at mid first + 1 + 1)) (eit_table t) (8 * (seg_at mid first + 1))
     (eit_table t, 8 * (seg_at mid first + 1), []) = Ok l /\ Forall (at_home mid (seg_at mid first) (eit_table t)) l).
  { apply (plan_gapless mid (seg_at mid first) (eit_table t) (first :: items) (seg_at mid first) (seg_at mid first + 1) 0 0); try assumption; try lia.
    - cbn [gapless]. split; [lia|exact G].
    - eapply Forall_impl; [|exact FB]. intros i Hi. cbv beta in Hi. lia.
    - intros c'. rewrite <- E. eapply Nat.le_lt_trans; [|apply (HL (c' - 1))].
      assert (Z : (if (c' =? seg_at mid first + 1)%N then 0 else 0)%nat = 0%nat) by (destruct (c' =? _); reflexivity). rewrite Z. cbn [Nat.add].
      rewrite E. destruct (N.eq_dec c' 0) as [C0|C0].
      + subst c'. unfold load. replace (filter _ (first :: items)) with (@nil eit_item); [cbn; lia|]. symmetry.
        clear. induction (first :: items) as [|a l IH]; [reflexivity|]. cbn [filter]. unfold home at 1.
        destruct (N.eqb_spec (N.max (seg_at mid a) (seg_at mid first + 1)) 0) as [Q|Q]; [exfalso; lia|exact IH].
      + assert (FG : Forall (fun i => seg_at mid first <= seg_at mid i) (first :: items)).
        { clear - G. assert (X : forall l s s', gapless mid s' l -> s <= s' -> Forall (fun i => s <= seg_at mid i) l).
          { induction l as [|a l IH]; intros s s' Gl Hs; [constructor|]. cbn [gapless] in Gl. destruct Gl as [G1 G2]. constructor; [lia|]. apply (IH s _ G2). lia. }
          constructor; [lia|]. apply (X _ _ _ G). lia. }
        clear - FG C0. induction FG as [|a l Ha _ IH]; [reflexivity|]. rewrite !load_cons.
        assert (Y : (home mid (seg_at mid first) a =? c') = true -> (seg_at mid a =? c' - 1) || (seg_at mid a =? c' - 1 + 1) = true).
        { unfold home. intros Y. apply N.eqb_eq in Y. apply orb_true_iff. rewrite !N.eqb_eq. lia. }
        destruct (home mid (seg_at mid first) a =? c'); [rewrite Y by reflexivity; lia|]. destruct (_ || _); lia.
    - cbn [part_items flat_map length]. lia.
    - cbn [part_items]. intros i [].
    - reflexivity.
    - reflexivity. }
  destruct P as (l & P & FA). exists (sealing (last_table t first (last items first)) (blanks (N.to_nat (seg_at mid first + 1)) (eit_table t) 0 ++ l)).
  assert (PD : eit_plan Debug t first items = Ok (last_table t first (last items first), blanks (N.to_nat (seg_at mid first + 1)) (eit_table t) 0 ++ l)).
  { unfold eit_plan. change (segment first) with (seg_at mid first). change (midnight first) with mid. rewrite subw_ok by exact LM. cbn [bind]. rewrite B.
    assert (Q : (eiti_start (last items first) - mid) / 10800 / 32 < 16) by (unfold seg_at in G5; clear - G5; dlia).
    rewrite addw_ok by (unfold cast, U8; rewrite N.mod_small by lia; lia). cbn [bind].
    replace (mid + 10800 * (seg_at mid first + 1) + 10800) with (mid + 10800 * (seg_at mid first + 1 + 1)) by lia. rewrite P. cbn [bind]. f_equal. f_equal.
    unfold last_table. fold mid. replace (eit_table t / 16 * 16) with (eit_table t) by (clear - H16; dlia). symmetry. apply N.mod_small.
    unfold cast, U8. rewrite N.mod_small by lia. lia. }
  assert (PM : eit_plan m t first items = Ok (last_table t first (last items first), blanks (N.to_nat (seg_at mid first + 1)) (eit_table t) 0 ++ l)).
  { destruct m; [exact PD|]. clear - PD. revert PD. generalize (blanks (N.to_nat (seg_at mid first + 1)) (eit_table t) 0 ++ l). intros l0. unfold eit_plan.
    destruct (subw U64 Debug (eiti_start (last items first)) (midnight first)) as [sv| |] eqn:E1; cbn [bind]; try discriminate.
    destruct (addw U8 Debug (N.land (eit_table t) 240) (cast U8 (sv / 10800 / 32))) as [lt| |] eqn:E2; cbn [bind]; try discriminate.
    destruct (plan Debug _ _ _ _ _) as [l2| |] eqn:E3; cbn [bind]; try discriminate. intros Q.
    apply (plan_debug Release) in E3. unfold subw in E1. destruct (_ <=? _) eqn:L1 in E1; [|discriminate].
    unfold addw in E2. destruct (_ <? _) eqn:L2 in E2; [|discriminate].
    unfold subw. rewrite L1. rewrite E1. cbn [bind]. unfold addw. rewrite L2, E2. cbn [bind]. rewrite E3. cbn [bind]. exact Q. }
  split.
  - destruct (sched_plan m t first items pid cc dst H E F R Hp Hc _ _ PM) as (D1 & D2 & D3 & D4 & D5 & D6 & D7).
    split; [exact D1|]. split; [exact D2|]. split; [exact D3|]. split; [exact D4|]. split; [|split; [|split; [exact D6|split; [intros L; exact (seen_few t _ _ _ R (D7 L))|]]]].
    + intros _. eapply Forall_impl; [|apply sealing_own]. intros s Hs. apply Hs.
    + intros Em _. split; [apply D5; assumption|]. rewrite slot_positions_eq, E. exact (eit_plan_positions t first items _ _ ltac:(lia) H16 PD).
    + intros X m' p old. exact (eit_schedule_seen m' t first items _ _ pid cc H E F R Hp Hc X m PM p old).
  - intros s i Hs Hi.
    assert (A : Forall (at_home mid (seg_at mid first) (eit_table t)) (blanks (N.to_nat (seg_at mid first + 1)) (eit_table t) 0 ++ l)).
    { apply Forall_app. split; [|exact FA]. eapply Forall_impl; [|apply blanks_tables]. intros x [_ X] j Hj. rewrite X in Hj. destruct Hj. }
    apply (forall_map_parts _ (last_table t first (last items first))) in A. rewrite Forall_forall in A. specialize (A s Hs i).
    rewrite <- slot_part_item in A. specialize (A Hi). change (home mid (seg_at mid first) i) with (N.max (seg_at mid i) (seg_at mid first + 1)) in A.
    rewrite <- A. destruct s as [[[[[tb n] a] b] c] g]. cbn [slot_part slot_table slot_num] in *. unfold key in *. cbn [part_table part_num] in *. 
    clear - A. dlia.
Qed.

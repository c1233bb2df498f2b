(** Proofs: EIT schedule tables, where the events are placed. *)
From Coq Require Import Sorting.Sorted.
From Verif Require Import Prelude Layout Facts Facts2 S_ts S_crc S_utils S_psi M_bytes M_ts M_crc M_utils M_psi M_drive M_recv M_desc S_desc
  M_tables S_tables P_bytes P_crc P_utils P_psi P_mux P_mux2 P_sect P_mux3 P_desc P_desc2 P_desc3 W_psi W_desc P_tab P_tab2 P_tab3 P_tab4 P_tab5 P_eit P_eit2 P_eit3 W_tables.

(** the segment of an event, counted from [mid] *)
Definition seg_at (mid : N) (i : eit_item) : N := (eiti_start i - mid) / 10800.

(** ** exact positions *)
(** position: section number plus 256 per table *)
Fixpoint placing (mid : N) (q k : N) (used : nat) (items : list eit_item) : list N :=
  match items with
  | [] => []
  | i :: r =>
    let n := length (eit_entry i) in
    if k <? seg_at mid i then let q' := q / 8 * 8 + 8 in q' :: placing mid q' (k + 1) (14 + n) r
    else if (N.to_nat 4092 <=? used + n)%nat then q + 1 :: placing mid (q + 1) k (14 + n) r
    else q :: placing mid q k (used + n) r
  end.
Definition positions (l : list part) : list N := flat_map (fun x => repeat (key x) (length (part_items x))) l.

Lemma plan_placing mid : forall items q k tb sec cur l,
  plan Debug items (mid + 10800 * (k + 1)) tb sec cur = Ok l -> sec < 256 -> q = 256 * tb + sec -> part_table cur = tb -> part_num cur = sec ->
  positions l = repeat q (length (part_items cur)) ++ placing mid q k (14 + length (flat_map eit_entry (part_items cur))) items.
Proof.
  assert (DA : forall w a b c, addw w Debug a b = Ok c -> c = a + b /\ c < w).
  { intros w a b c. unfold addw. destruct (N.ltb_spec (a + b) w); [|discriminate]. intros Q. injection Q as <-. lia. }
  induction items as [|i items IH]; intros q k tb sec cur l E S Hq T1 T2; cbn [plan] in E.
  - injection E as <-. unfold positions. cbn [flat_map placing]. rewrite !app_nil_r. unfold key. rewrite T1, T2, Hq. reflexivity.
  - cbn [placing]. assert (KE : (mid + 10800 * (k + 1) <=? eiti_start i) = (k <? seg_at mid i)).
    { unfold seg_at. destruct (N.leb_spec (mid + 10800 * (k + 1)) (eiti_start i)), (N.ltb_spec k ((eiti_start i - mid) / 10800)); try reflexivity; exfalso; dlia. }
    rewrite KE in E. destruct (k <? seg_at mid i).
    + apply bind_inv in E as (nx & En & E). apply bind_inv in E as ([s tb'] & Es & E). apply bind_inv in E as (l' & E & E'). injection E' as <-.
      apply DA in En as [-> En]. replace (mid + 10800 * (k + 1) + SEG_DURATION) with (mid + 10800 * (k + 1 + 1)) in E by (unfold SEG_DURATION; lia).
      assert (R : s < 256 /\ q / 8 * 8 + 8 = 256 * tb' + s).
      { destruct (N.eqb_spec (sec / 8 * 8) 248) as [E8|E8].
        - apply bind_inv in Es as (v & Ev & Es). injection Es as <- <-. apply DA in Ev as [-> Ev]. subst q. clear - E8 S. dlia.
        - apply bind_inv in Es as (v & Ev & Es). injection Es as <- <-. apply DA in Ev as [-> Ev]. unfold U8 in Ev. subst q. clear - E8 S Ev. dlia. }
      destruct R as [R1 R2]. apply (IH (q / 8 * 8 + 8)) in E; [|assumption|assumption|reflexivity|reflexivity].
      cbn [part_items length repeat app flat_map] in E. rewrite app_nil_r in E.
      change (positions (cur :: l')) with (repeat (key cur) (length (part_items cur)) ++ positions l'). rewrite E. unfold key. rewrite T1, T2, <- Hq. reflexivity.
    + unfold big, EIT_SECTION_SIZE in E. change (4096 - 4) with 4092 in E.
      rewrite (Nat.add_comm (length (eit_entry i))) in E.
      destruct (N.to_nat 4092 <=? 14 + length (flat_map eit_entry (part_items cur)) + length (eit_entry i))%nat.
      * apply bind_inv in E as (s & Es & E). apply bind_inv in E as (l' & E & E'). injection E' as <-. apply DA in Es as [-> Es].
        apply (IH (q + 1)) in E; [|exact Es|lia|reflexivity|reflexivity].
        cbn [part_items length repeat app flat_map] in E. rewrite app_nil_r in E.
        change (positions (cur :: l')) with (repeat (key cur) (length (part_items cur)) ++ positions l'). rewrite E. unfold key. rewrite T1, T2, <- Hq. reflexivity.
      * apply (IH q) in E; try assumption. cbn [part_items] in E. rewrite E, app_length, flat_map_app, app_length. cbn [length flat_map]. rewrite app_nil_r.
        rewrite repeat_app. cbn [repeat]. rewrite <- app_assoc. cbn [app]. rewrite !Nat.add_assoc. reflexivity.
Qed.
Lemma blanks_positions tb : forall n s, positions (blanks n tb s) = [].
Proof. induction n as [|n IH]; intros s; [reflexivity|]. cbn [blanks]. exact (IH (s + 8)). Qed.
Lemma positions_app a b : positions (a ++ b) = positions a ++ positions b.
Proof. apply flat_map_app. Qed.

Lemma eit_plan_positions t first items lt l : eit_table t < 256 -> eit_table t mod 16 = 0 -> eit_plan Debug t first items = Ok (lt, l) ->
  positions l = placing (midnight first) (256 * eit_table t + 8 * (segment first + 1)) (segment first + 1) 14 (first :: items).
Proof.
  intros Ht H16. unfold eit_plan. intros P. apply bind_inv in P as (sv & _ & P). apply bind_inv in P as (lt' & _ & P). apply bind_inv in P as (l' & P & Q).
  injection Q as <- <-. assert (B : N.land (eit_table t) 240 = eit_table t) by (rewrite land_F0 by assumption; clear - H16; dlia). rewrite B in *.
  pose proof (segment_le first) as (S8 & _).
  replace (midnight first + 10800 * (segment first + 1) + 10800) with (midnight first + 10800 * (segment first + 1 + 1)) in P by lia.
  rewrite positions_app, blanks_positions. cbn [app].
  eapply plan_placing in P; [|lia|reflexivity|reflexivity|reflexivity]. exact P.
Qed.

(** ** schedules without gaps *)
Definition load (P : eit_item -> bool) (items : list eit_item) : nat := length (flat_map eit_entry (filter P items)).
Lemma load_cons P i items : load P (i :: items) = ((if P i then length (eit_entry i) else 0) + load P items)%nat.
Proof. unfold load. cbn [filter]. destruct (P i); [cbn [flat_map]; rewrite app_length; reflexivity|reflexivity]. Qed.
(** consecutive events are in the same or in consecutive segments, in order *)
Fixpoint gapless (mid s : N) (items : list eit_item) : Prop :=
  match items with [] => True | i :: r => s <= seg_at mid i <= s + 1 /\ gapless mid (seg_at mid i) r end.
Definition home (mid s0 : N) (i : eit_item) : N := N.max (seg_at mid i) (s0 + 1).
Definition at_home (mid s0 base : N) (x : part) : Prop := forall i, In i (part_items x) -> key x / 8 = 32 * base + home mid s0 i.
Definition LIM : nat := N.to_nat 16312.

Lemma plan_gapless mid s0 base : forall items s c b w tb sec cur,
  Forall (fun i => eiti_start i < MJD_END) items -> mid < MJD_END ->
  gapless mid s items -> c = N.max s (s0 + 1) -> Forall (fun i => 32 * base + seg_at mid i < 8192) items -> 32 * base + c < 8192 ->
  (forall c' : N, ((if (c' =? c)%N then w else 0) + load (fun i => (home mid s0 i =? c')%N) items < LIM)%nat) ->
  256 * tb + sec = 256 * base + 8 * c + b -> sec < 256 -> b < 8 ->
  (N.to_nat b * N.to_nat 4078 + length (flat_map eit_entry (part_items cur)) <= 2 * w)%nat ->
  (forall i, In i (part_items cur) -> home mid s0 i = c) -> part_table cur = tb -> part_num cur = sec ->
  exists l, plan Debug items (mid + 10800 * (c + 1)) tb sec cur = Ok l /\ Forall (at_home mid s0 base) l.
Proof.
  induction items as [|i items IH]; intros s c b w tb sec cur FS HM G Hc FB HB HL HQ HS Hb HW HI T1 T2; cbn [plan].
  - eexists. split; [reflexivity|]. constructor; [|constructor]. intros i Hi. rewrite (HI i Hi). unfold key. rewrite T1, T2, HQ. clear - Hb. dlia.
  - cbn [gapless] in G. destruct G as [G1 G2]. inversion FS as [|? ? FS1 FS2]; subst x l. inversion FB as [|? ? FB1 FB2]; subst x l.
    assert (AH : at_home mid s0 base cur).
    { intros j Hj. rewrite (HI j Hj). unfold key. rewrite T1, T2, HQ. clear - Hb. dlia. }
    assert (KE : (mid + 10800 * (c + 1) <=? eiti_start i) = (c <? seg_at mid i)).
    { unfold seg_at. destruct (N.leb_spec (mid + 10800 * (c + 1)) (eiti_start i)), (N.ltb_spec c ((eiti_start i - mid) / 10800)); try reflexivity; exfalso; dlia. }
    rewrite KE. destruct (N.ltb_spec c (seg_at mid i)) as [L|L].
    + assert (Es : seg_at mid i = c + 1) by lia. assert (Hh : home mid s0 i = c + 1) by (unfold home; lia).
      assert (CB : mid + 10800 * (c + 1) <= eiti_start i) by (unfold seg_at in L; clear - L; dlia).
      rewrite addw_ok by (unfold U64, SEG_DURATION, MJD_END in *; lia). cbn [bind].
      replace (mid + 10800 * (c + 1) + SEG_DURATION) with (mid + 10800 * (c + 1 + 1)) by (unfold SEG_DURATION; lia).
      assert (HL' : forall c' : N, ((if (c' =? c + 1)%N then length (eit_entry i) else 0) + load (fun i => (home mid s0 i =? c')%N) items < LIM)%nat).
      { intros c'. specialize (HL c'). rewrite load_cons, Hh, (N.eqb_sym (c + 1)) in HL. destruct (c' =? c + 1), (c' =? c); lia. }
      assert (W' : (N.to_nat 0 * N.to_nat 4078 + length (flat_map eit_entry [i]) <= 2 * length (eit_entry i))%nat).
      { cbn [flat_map]. rewrite app_nil_r. lia. }
      destruct (N.eqb_spec (sec / 8 * 8) 248) as [E8|E8].
      * rewrite addw_ok by (unfold U8; clear - HQ E8 HS Hb FB1 Es; dlia). cbn [bind].
        destruct (IH (seg_at mid i) (c + 1) 0 (length (eit_entry i)) (tb + 1) 0 (tb + 1, 0, [i])) as (l & -> & Fl); try assumption; try reflexivity; try lia; try (clear - HQ E8 HS Hb; dlia).
        -- intros j [<-|[]]. exact Hh.
        -- cbn [bind]. eexists. split; [reflexivity|]. constructor; assumption.
      * rewrite addw_ok by (unfold U8; clear - E8 HS; dlia). cbn [bind].
        destruct (IH (seg_at mid i) (c + 1) 0 (length (eit_entry i)) tb (sec / 8 * 8 + 8) (tb, sec / 8 * 8 + 8, [i])) as (l & -> & Fl); try assumption; try reflexivity; try lia; try (clear - HQ E8 HS Hb; dlia).
        -- intros j [<-|[]]. exact Hh.
        -- cbn [bind]. eexists. split; [reflexivity|]. constructor; assumption.
    + assert (Hh : home mid s0 i = c) by (unfold home; lia). assert (Hc' : c = N.max (seg_at mid i) (s0 + 1)) by (symmetry; exact Hh).
      assert (HL' : forall c' : N, ((if (c' =? c)%N then w + length (eit_entry i) else 0) + load (fun i => (home mid s0 i =? c')%N) items < LIM)%nat).
      { intros c'. specialize (HL c'). rewrite load_cons, Hh, (N.eqb_sym c) in HL. destruct (c' =? c); lia. }
      unfold big, EIT_SECTION_SIZE. change (4096 - 4) with 4092.
      destruct (Nat.leb_spec (N.to_nat 4092) (length (eit_entry i) + (14 + length (flat_map eit_entry (part_items cur))))) as [B|B].
      * assert (WB : (N.to_nat (b + 1) * N.to_nat 4078 + length (flat_map eit_entry [i]) <= 2 * (w + length (eit_entry i)))%nat).
        { cbn [flat_map]. rewrite app_nil_r. lia. }
        assert (B8 : b + 1 < 8).
        { specialize (HL' c). rewrite N.eqb_refl in HL'. unfold LIM in HL'. lia. }
        rewrite addw_ok by (unfold U8; clear - HQ HS B8; dlia). cbn [bind].
        destruct (IH (seg_at mid i) c (b + 1) (w + length (eit_entry i))%nat tb (sec + 1) (tb, sec + 1, [i])) as (l & -> & Fl); try assumption; try reflexivity; try lia; try (clear - HQ HS B8; dlia).
        -- intros j [<-|[]]. exact Hh.
        -- cbn [bind]. eexists. split; [reflexivity|]. constructor; assumption.
      * apply (IH (seg_at mid i) c b (w + length (eit_entry i))%nat tb sec (part_table cur, part_num cur, part_items cur ++ [i])); try assumption.
        -- cbn [part_items]. rewrite flat_map_app, app_length. cbn [flat_map]. rewrite app_nil_r. lia.
        -- intros j Hj. apply in_app_or in Hj as [Hj|[<-|[]]]; [apply HI; exact Hj|exact Hh].
Qed.

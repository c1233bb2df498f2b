(** Proofs: EIT schedule tables, sending and reception. *)
From Verif Require Import Prelude Layout Facts Facts2 S_ts S_crc S_utils S_psi M_bytes M_ts M_crc M_utils M_psi M_drive M_recv M_desc S_desc
  M_tables S_tables P_bytes P_crc P_utils P_psi P_mux P_mux2 P_sect P_mux3 P_desc P_desc2 P_desc3 W_psi W_desc P_tab P_tab2 P_tab3 P_tab4 P_tab5 P_eit P_eit2.

Definition midnight (i : eit_item) : N := eiti_start i / 86400 * 86400.
Definition segment (i : eit_item) : N := (eiti_start i - midnight i) / 10800.
Lemma segment_le i : segment i < 8 /\ midnight i <= eiti_start i /\ eiti_start i < midnight i + 10800 * (segment i + 1) /\
  midnight i + 10800 * segment i <= eiti_start i.
Proof. unfold segment, midnight. dlia. Qed.
Lemma segment_mod i : segment i = eiti_start i mod 86400 / 10800.
Proof. unfold segment, midnight. dlia. Qed.

Definition eit_plan (m : mode) (t : eit) (first : eit_item) (items : list eit_item) : res (N * list part) :=
  let base := N.land (eit_table t) 0xF0 in
  let s := 8 * (segment first + 1) in
  service <- subw U64 m (eiti_start (last items first)) (midnight first) ;;
  lt <- addw U8 m base (cast U8 (service / 10800 / 32)) ;;
  l <- plan m (first :: items) (midnight first + 10800 * (segment first + 1) + 10800) base s (eit_table t, s, []) ;;
  Ok (lt, blanks (N.to_nat (segment first + 1)) base 0 ++ l).

Lemma land_F0 x : x < 256 -> N.land x 0xF0 = x / 16 * 16.
Proof.
  intros H. apply N.bits_inj. intros k. rewrite N.land_spec.
  change 16 with (2 ^ 4). rewrite <- N.shiftr_div_pow2, <- N.shiftl_mul_pow2.
  destruct (N.ltb_spec k 4).
  - rewrite N.shiftl_spec_low by assumption. assert (D : k = 0 \/ k = 1 \/ k = 2 \/ k = 3) by lia.
    destruct D as [-> |[-> |[-> | ->]]]; apply andb_false_r.
  - rewrite N.shiftl_spec_high' by assumption. rewrite N.shiftr_spec'. replace (k - 4 + 4) with k by lia.
    destruct (N.ltb_spec k 8).
    + assert (D : k = 4 \/ k = 5 \/ k = 6 \/ k = 7) by lia. destruct D as [-> |[-> |[-> | ->]]]; apply andb_true_r.
    + destruct (N.eq_dec x 0) as [-> |Hx]; [rewrite N.bits_0; reflexivity|].
      rewrite (N.bits_above_log2 x k); [reflexivity|]. apply N.lt_le_trans with 8; [|assumption]. apply N.log2_lt_pow2; [lia|]. exact H.
Qed.

Lemma blanks_ok tb : tb < 256 -> forall n s, s + 8 * N.of_nat n < 264 -> Forall part_ok (blanks n tb s).
Proof.
  intros Ht. induction n as [|n IH]; intros s H; [constructor|]. cbn [blanks]. constructor; [|apply IH; lia].
  unfold part_ok. cbn [part_table part_num part_items flat_map length]. repeat split; [assumption|lia|constructor|lia].
Qed.
Lemma blanks_items tb : forall n s, concat (map part_items (blanks n tb s)) = [].
Proof. induction n as [|n IH]; intros s; [reflexivity|]. cbn [blanks map concat part_items app]. apply IH. Qed.
Lemma blanks_tables tb : forall n s, Forall (fun x => part_table x = tb /\ part_items x = []) (blanks n tb s).
Proof. induction n as [|n IH]; intros s; [constructor|]. cbn [blanks]. constructor; [split; reflexivity|apply IH]. Qed.

Section Sched.
Context (m : mode) (t : eit) (first : eit_item) (items : list eit_item).
Context (H : eit_ok t) (E : eit_items t = first :: items) (F : eit_fits (N.to_nat 4098) t).

Lemma base_le : N.land (eit_table t) 0xF0 < 256.
Proof. apply (land_lt 8). reflexivity. Qed.

Lemma plan_parts lt l : eit_plan m t first items = Ok (lt, l) -> Forall part_ok l.
Proof.
  intros P. unfold eit_plan in P. apply bind_inv in P as (sv & _ & P). apply bind_inv in P as (lt' & _ & P). apply bind_inv in P as (l' & P & Q).
  injection Q as <- <-. pose proof (segment_le first) as (S8 & _). pose proof base_le as B. apply Forall_app. split; [apply blanks_ok; [assumption|lia]|].
  pose proof H as (H1 & _ & _ & _ & _ & H6). pose proof F as F'. unfold eit_fits in F'. rewrite E in F', H6.
  pose proof (plan_items _ _ _ _ _ _ _ P) as PI. cbn [part_items app] in PI.
  apply (plan_ok m (N.to_nat 4098)) in P; try assumption; try lia; [|unfold small; cbn [part_items flat_map length]; lia|cbn [part_num]; lia].
  assert (FI : Forall (fun x => Forall eit_item_ok (part_items x)) l').
  { rewrite <- PI in H6. clear - H6. induction l' as [|x l IH]; [constructor|]. cbn [map concat] in H6. apply Forall_app in H6 as [A B]. constructor; auto. }
  clear - P FI. induction P as [|x l (A & B & C) _ IH]; [constructor|]. inversion FI; subst. constructor; [|apply IH; assumption].
  unfold part_ok. repeat split; assumption.
Qed.

Lemma eit_schedule_spec :
  eit_schedule m t first items = match eit_plan m t first items with
    | Ok (lt, l) => Ok (map sealed (map (slot_section t) (sealing lt l))) | Panic => Panic | Hang => Hang end /\
  forall lt l, eit_plan m t first items = Ok (lt, l) -> Forall section_ok (map (slot_section t) (sealing lt l)).
Proof.
  pose proof plan_parts as PP. pose proof base_le as B. pose proof H as (H1 & _ & _ & _ & _ & H6). rewrite E in H6.
  pose proof (segment_le first) as (S8 & M1 & M2 & M3).
  assert (ST : eiti_start first < MJD_END) by (inversion H6 as [|? ? (_ & Q & _) _]; exact Q).
  assert (LT : forall lt l, eit_plan m t first items = Ok (lt, l) -> lt < 256).
  { intros lt l P. unfold eit_plan in P. apply bind_inv in P as (sv & _ & P). apply bind_inv in P as (lt' & P2 & P). apply bind_inv in P as (l' & _ & Q).
    injection Q as <- <-. eapply addw_lt; [exact P2|discriminate|assumption]. }
  assert (CL : forall lt l, eit_plan m t first items = Ok (lt, l) ->
    eit_close lt (rev (map (part_raw t) l)) 0 0 [] = Ok (map sealed (map (slot_section t) (sealing lt l))) /\
    Forall section_ok (map (slot_section t) (sealing lt l))).
  { intros lt l P. rewrite <- map_rev. destruct (eit_close_spec t lt (LT _ _ P) (rev l) 0 0 [] ltac:(lia)) as [C K].
    { apply Forall_rev, (PP _ _ P). }
    rewrite C, app_nil_r, map_rev_slots. split; [reflexivity|]. unfold sealing. rewrite map_rev. apply Forall_rev. assumption. }
  split; [|intros lt l P; apply (CL lt l P)].
  unfold eit_schedule. cbv zeta. change DAY_DURATION with 86400. change (3 * 60 * 60) with 10800. change SEG_DURATION with 10800.
  change (eiti_start first / 86400 * 86400) with (midnight first). change ((eiti_start first - midnight first) / 10800) with (segment first).
  revert CL. unfold eit_plan. cbv zeta.
  destruct (subw U64 m (eiti_start (last items first)) (midnight first)) as [sv| |]; cbn [bind]; try reflexivity.
  destruct (addw U8 m (N.land (eit_table t) 240) (cast U8 (sv / 10800 / 32))) as [lt| |]; cbn [bind]; try reflexivity.
  rewrite eraw_init. cbn [bind].
  match goal with |- context [eraw ?t' ?a 0 0 0 0 []] => change (eraw t' a 0 0 0 0 []) with (eraw t (N.land (eit_table t) 240) 0 0 0 0 []) end.
  unfold MJD_END in ST.
  rewrite (proj1 (eit_blank_spec m t (N.land (eit_table t) 240) (N.to_nat (segment first + 1)) (N.land (eit_table t) 240) (midnight first) 0
     ltac:(rewrite N2Nat.id; unfold SEG_DURATION, U64; lia) ltac:(lia))). cbn [bind].
  rewrite N2Nat.id. change SEG_DURATION with 10800. rewrite addw_ok by (unfold U64; lia). cbn [bind].
  rewrite eraw_init. cbn [bind]. rewrite eraw_6. cbn [bind]. rewrite eraw_with. rewrite N.add_0_l.
  change (eraw t (eit_table t) (8 * (segment first + 1)) 0 0 0 []) with (part_raw t (eit_table t, 8 * (segment first + 1), [])).
  rewrite eit_fill_spec by assumption.
  destruct (plan m (first :: items) (midnight first + 10800 * (segment first + 1) + 10800) (N.land (eit_table t) 240) (8 * (segment first + 1))
              (eit_table t, 8 * (segment first + 1), [])) as [l| |]; cbn [bind]; try reflexivity.
  intros CL. rewrite <- map_app. apply (CL _ _ eq_refl).
Qed.
End Sched.

(** the sealed sections carry what the plan says *)
Definition slot_part (s : slot) : part := let '(tb, n, _, _, _, g) := s in (tb, n, g).
Lemma seal_parts lt : forall rl table last, map slot_part (seal lt rl table last) = rl.
Proof. induction rl as [|[[tb n] g] rl IH]; intros table last; [reflexivity|]. cbn [seal map slot_part]. rewrite IH. reflexivity. Qed.
Lemma sealing_parts lt l : map slot_part (sealing lt l) = l.
Proof. unfold sealing. rewrite map_rev, seal_parts, rev_involutive. reflexivity. Qed.
Lemma slot_part_items l : concat (map slot_items l) = concat (map part_items (map slot_part l)).
Proof. rewrite map_map. f_equal. apply map_ext. intros [[[[[? ?] ?] ?] ?] ?]. reflexivity. Qed.
Lemma slot_part_table s : slot_table s = part_table (slot_part s).
Proof. destruct s as [[[[[? ?] ?] ?] ?] ?]. reflexivity. Qed.
Lemma slot_part_item s : slot_items s = part_items (slot_part s).
Proof. destruct s as [[[[[? ?] ?] ?] ?] ?]. reflexivity. Qed.

Lemma eit_plan_items m t first items lt l : eit_plan m t first items = Ok (lt, l) -> concat (map part_items l) = first :: items.
Proof.
  unfold eit_plan. intros P. apply bind_inv in P as (sv & _ & P). apply bind_inv in P as (lt' & _ & P). apply bind_inv in P as (l' & P & Q).
  injection Q as <- <-. rewrite map_app, concat_app, blanks_items. apply (plan_items _ _ _ _ _ _ _ P).
Qed.
Lemma eit_plan_tables m t first items lt l : eit_plan m t first items = Ok (lt, l) -> eit_table t < 256 -> (length (first :: items) < N.to_nat 504)%nat ->
  Forall (fun x => N.land (eit_table t) 0xF0 <= part_table x < N.land (eit_table t) 0xF0 + 16) l.
Proof.
  unfold eit_plan. intros P Ht Hl. apply bind_inv in P as (sv & _ & P). apply bind_inv in P as (lt' & _ & P). apply bind_inv in P as (l' & P & Q).
  injection Q as <- <-. rewrite land_F0 in * by assumption. set (b := eit_table t / 16 * 16) in *. assert (Hb : b <= eit_table t < b + 16 /\ b + 16 <= 256) by (subst b; clear - Ht; dlia).
  pose proof (segment_le first) as (S8 & _). apply Forall_app. split.
  - eapply Forall_impl; [|apply blanks_tables]. intros x [-> _]. lia.
  - eapply (plan_tables m (b + 16)) in P; [|lia|lia|lia].
    eapply Forall_impl; [|exact P]. intros x. cbn [part_table]. lia.
Qed.

Lemma eit_schedule_sections m t first items : eit_items t = first :: items -> 0x50 <= eit_table t <= 0x6F ->
  eit_sections m t = eit_schedule m t first items.
Proof.
  intros E R. unfold eit_sections. rewrite E. destruct (N.eqb_spec (eit_table t) 0x4E); [lia|]. destruct (N.eqb_spec (eit_table t) 0x4F); [lia|]. reflexivity.
Qed.
Lemma eit_demux_schedule m t first items pid cc dst : eit_ok t -> eit_items t = first :: items -> eit_fits (N.to_nat 4098) t ->
  0x50 <= eit_table t <= 0x6F -> pid < 8192 -> cc < 16 ->
  eit_demux m t pid cc dst = match eit_plan m t first items with
   | Ok (lt, l) => let ss := map (slot_section t) (sealing lt l) in Ok (next_cc pid cc ss, dst ++ concat (stream pid cc ss))
   | Panic => Panic | Hang => Hang end /\
  forall lt l, eit_plan m t first items = Ok (lt, l) -> Forall section_ok (map (slot_section t) (sealing lt l)).
Proof.
  intros H E F R Hp Hc. destruct (eit_schedule_spec m t first items H E F) as [S K]. split; [|exact K].
  unfold eit_demux. rewrite (eit_schedule_sections m t first items E R), S. destruct (eit_plan m t first items) as [[lt l]| |] eqn:P; cbn [bind]; try reflexivity.
  cbv zeta. apply eit_send_spec; try assumption. apply (K lt l eq_refl).
Qed.

Lemma forall_map_parts (P : part -> Prop) lt l : Forall P l -> Forall (fun s => P (slot_part s)) (sealing lt l).
Proof. intros F. rewrite <- (sealing_parts lt l) in F. apply (proj1 (Forall_map slot_part P _)) in F. exact F. Qed.

Lemma eit_schedule_recover m t first items lt l old : eit_ok t -> eit_items t = first :: items -> eit_fits (N.to_nat 4098) t ->
  Forall (item_exact eiti_descs) (eit_items t) -> forall m', eit_plan m' t first items = Ok (lt, l) ->
  Forall (fun x => 0x4E <= part_table x <= 0x6F) l ->
  exists x, In x l /\ parse_sections (eit_parse m) old (map (slot_section t) (sealing lt l)) =
    Ok (eit_add old (mkEit (part_table x) (eit_version t) (eit_pnr t) (eit_tsid t) (eit_onid t) (eit_items t))).
Proof.
  intros H E F X m' P T. destruct (eit_schedule_spec m' t first items H E F) as [_ K]. specialize (K _ _ P).
  pose proof (plan_parts m' t first items H E F lt l P) as PP. pose proof (eit_plan_items _ _ _ _ _ _ P) as PI.
  assert (NE : sealing lt l <> []).
  { intros Z. pose proof (sealing_parts lt l) as Q. rewrite Z in Q. cbn [map] in Q. subst l. discriminate PI. }
  pose proof (last_in _ no_slot NE) as LI. exists (slot_part (last (sealing lt l) no_slot)). split.
  { rewrite <- (sealing_parts lt l) at 2. apply in_map. exact LI. }
  rewrite eit_recover; try assumption.
  - rewrite slot_part_items, sealing_parts, PI, E. rewrite slot_part_table. reflexivity.
  - eapply Forall_impl; [|apply (forall_map_parts _ lt l T)]. intros s. cbv beta. rewrite slot_part_table. trivial.
  - eapply Forall_impl; [|apply (forall_map_parts _ lt l PP)]. intros s (_ & _ & Q & _). rewrite slot_part_item. exact Q.
  - assert (XX : Forall (fun x => Forall (item_exact eiti_descs) (part_items x)) l).
    { rewrite E, <- PI in X. clear - X. induction l as [|x l IH]; [constructor|]. cbn [map concat] in X. apply Forall_app in X as [A B]. constructor; auto. }
    eapply Forall_impl; [|apply (forall_map_parts _ lt l XX)]. intros s Q. rewrite slot_part_item. exact Q.
Qed.

(** Proofs: what can make a sender abort, EIT. *)
From Verif Require Import Prelude Layout Facts S_text S_utils S_desc M_bytes M_ts M_crc M_utils M_text M_psi M_desc M_tables
  P_text2 P_utils P_crc P_desc P_eit3 S_sender P_sender P_sender2 P_sender3.

Definition item_typed (i : eit_item) : Prop := eiti_start i < 2 ^ 64 /\ eiti_duration i < 2 ^ 32 /\ descs_typed (eiti_descs i).
Lemma st_eit_init m t : eit_table t < 2 ^ 8 -> st false (eit_init m t) (sect 14).
Proof.
  intros T1. unfold eit_init. eapply st_seq; [apply st_psi_new; [exact T1|lia]|]. intros p (P1 & P2). do 4 step. apply st_ok. split; [cbn [with_buffer p_buffer]; assumption|exact P2].
Qed.
Lemma st_eiti' m i n b : item_typed i -> B n b -> st (dbg m && loop_over (eiti_descs i)) (eit_item_assemble m i b) (B (n + event_written i)).
Proof. intros (T1 & T2 & T3). apply st_eiti; assumption. Qed.
Lemma st_pf m t last : last < 256 -> eit_table t < 2 ^ 8 -> forall items n, Forall item_typed items ->
  st (dbg m && existsb (fun i => loop_over (eiti_descs i)) items) (eit_pf m t last n items) (fun l => Forall full l /\ length l = length items).
Proof.
  intros HL T. induction items as [|i r IH]; intros n H; cbn [eit_pf existsb]; [rewrite andb_false_r; apply st_ok; split; [constructor|reflexivity]|].
  inversion H as [|? ? O1 O2]; subst. pose proof T as T'. change (2 ^ 8) with 256 in T'. rewrite andb_orb_distrib_r. eapply st_seq; [apply st_eit_init; exact T|]. intros p (P1 & P2). do 4 step.
  eapply st_bind; [apply st_eiti'; [exact O1|eassumption]|]. intros b Hb. eapply st_seq; [apply st_finalize; eapply sec_done; [exact P2|exact Hb|lia]|]. intros q Q.
  eapply st_then; [apply IH; exact O2|]. intros l (L1 & L2). apply st_ok. split; [constructor; assumption|cbn [length]; lia].
Qed.
Lemma st_addw w m a b : w <> 0 -> st (dbg m && (w <=? a + b)) (addw w m a b) (fun r => r < w /\ (dbg m = true -> r = a + b) /\ (a + b < w -> r = a + b)).
Proof.
  intros W. unfold addw. destruct (N.ltb_spec (a + b) w) as [L|L].
  - replace (w <=? a + b) with false by (symmetry; apply N.leb_gt; exact L). rewrite andb_false_r. apply st_ok. auto.
  - replace (w <=? a + b) with true by (symmetry; apply N.leb_le; exact L). destruct m; [reflexivity|]. apply st_ok. split; [apply N.mod_lt; exact W|]. split; [discriminate|lia].
Qed.
Lemma dbg_cong m (x y : bool) : (dbg m = true -> x = y) -> dbg m && x = dbg m && y.
Proof. destruct (dbg m); [intros H; rewrite H; reflexivity|reflexivity]. Qed.
Lemma leb_orb a b w : a <= b -> (w <=? b) = (w <=? a) || (w <=? b).
Proof. intros H. destruct (N.leb_spec w a) as [L|L]; cbn [orb]; [apply N.leb_le; lia|reflexivity]. Qed.

Lemma st_blank m table : table < 256 -> forall n p mid s, sect 14 p -> mid < 2 ^ 64 -> s + 8 * N.of_nat n < 256 ->
  st (dbg m && (2 ^ 64 <=? mid + 10800 * N.of_nat n)) (eit_blank m n table p mid s)
     (fun r => Forall (sec 14) (fst (fst r)) /\ (dbg m = true -> snd (fst r) = mid + 10800 * N.of_nat n) /\ snd r = s + 8 * N.of_nat n).
Proof.
  intros T. induction n as [|n IH]; intros p mid s (P1 & P2) M S; cbn [eit_blank].
  - replace (2 ^ 64 <=? mid + 10800 * N.of_nat 0) with false by (symmetry; apply N.leb_gt; lia). rewrite andb_false_r. apply st_ok. cbn [fst snd]. split; [constructor|]. split; [lia|lia].
  - do 2 step. cbv zeta. rewrite (leb_orb (mid + 10800)), andb_orb_distrib_r by lia.
    eapply st_bind; [apply (st_addw U64 m mid SEG_DURATION); discriminate|]. intros mid' (M1 & M2 & M3).
    assert (S8 : (U8 <=? s + 8) = false) by (apply N.leb_gt; unfold U8; lia).
    pose proof (st_addw U8 m s 8 ltac:(discriminate)) as AS. rewrite S8, andb_false_r in AS. eapply st_seq; [exact AS|]. intros s' (S1 & S2 & S3). apply N.leb_gt in S8. specialize (S3 S8). subst s'.
    eapply st_then.
    + eapply st_eq; [|apply (IH (with_buffer p a0) mid' (s + 8)); [split; [cbn [with_buffer p_buffer]; assumption|exact P2]|exact M1|lia]].
      apply dbg_cong. intros D. rewrite (M2 D). unfold SEG_DURATION. f_equal. lia.
    + intros [[l mm] ss]. cbn [fst snd]. intros (L1 & L2 & L3). apply st_ok. cbn [fst snd]. split; [|split].
      * constructor; [|exact L1]. eapply sec_done; [exact P2|eassumption|lia].
      * intros D. rewrite (L2 D), (M2 D). unfold SEG_DURATION. lia.
      * lia.
Qed.
Lemma st_open m t table section i : eit_table t < 2 ^ 8 -> table < 256 -> section < 256 -> item_typed i ->
  st (dbg m && loop_over (eiti_descs i)) (eit_open m t table section i) (sect (14 + event_written i)).
Proof.
  intros T1 T2 T3 O. unfold eit_open. eapply st_seq; [apply st_eit_init; exact T1|]. intros p (P1 & P2). do 2 step. eapply st_then; [apply st_eiti'; [exact O|eassumption]|].
  intros b Hb. apply st_ok. split; [exact Hb|exact P2].
Qed.
Lemma said_item i : eit_item_size i = event_said i.
Proof. unfold eit_item_size, event_said. rewrite descs_said. reflexivity. Qed.
Lemma fill_test i n : (EIT_SECTION_SIZE <=? eit_item_size i + n)%nat = (N.to_nat 4092 <=? n + event_said i)%nat.
Proof. rewrite said_item, Nat.add_comm. reflexivity. Qed.
Lemma sec_snoc done n cur : Forall (sec 14) done -> sect n cur -> (14 <= n)%nat -> Forall (sec 14) (done ++ [cur]).
Proof. intros H C L. apply Forall_app. split; [exact H|]. constructor; [|constructor]. eapply sec_B; [exact C|exact L]. Qed.

Lemma fill_b4 d l a b c : d && (l || (a || b || c)) = d && a || (d && b || (d && l || d && c)).
Proof. destruct d, l, a, b, c; reflexivity. Qed.
Lemma fill_b3 d l b c : d && (l || (b || c)) = d && b || (d && l || d && c).
Proof. destruct d, l, b, c; reflexivity. Qed.
Lemma st_fill m t : eit_table t < 2 ^ 8 -> forall items next table section used done cur, Forall item_typed items -> table < 256 -> section < 256 ->
  Forall (sec 14) done -> sect used cur -> (14 <= used)%nat ->
  st (dbg m && events_over next (256 * table + section) used items) (eit_fill m t items next table section done cur) (fun l => Forall (sec 14) l /\ l <> []).
Proof.
  intros T. induction items as [|i r IH]; intros next table section used done cur H HT HS HD HC HU; cbn [eit_fill events_over].
  - rewrite andb_false_r. apply st_ok. split; [eapply sec_snoc; eassumption|]. destruct done; discriminate.
  - inversion H as [|? ? O1 O2]; subst. rewrite fill_test, (B_at _ _ (proj1 HC)). destruct (next <=? eiti_start i).
    + set (q := 256 * table + section). set (q' := q / 8 * 8 + 8). rewrite fill_b4.
      eapply st_bind; [apply (st_addw U64 m next SEG_DURATION); discriminate|]. intros next' (_ & N2 & _). cbv zeta.
      eapply st_bind with (Q := fun p => fst p < 256 /\ snd p < 256 /\ (dbg m = true -> 256 * snd p + fst p = q')).
      * destruct (N.eqb_spec (section / 8 * 8) 248) as [E|E].
        -- eapply st_then with (Q := fun t' => t' < U8 /\ (dbg m = true -> t' = table + 1)).
           ++ eapply st_eq; [|eapply st_weak; [apply (st_addw U8 m table 1); discriminate|]; intros ? (X1 & X2 & _); split; assumption].
              apply dbg_cong. intros _. unfold q', q, U8. rewrite eq_iff_eq_true, !N.leb_le. dlia.
           ++ intros t' (X1 & X2). apply st_ok. cbn [fst snd]. split; [reflexivity|]. split; [exact X1|]. intros Dm. rewrite (X2 Dm). unfold q', q. dlia.
        -- assert (Y : section / 8 * 8 + 8 < 256) by dlia.
           eapply st_then with (Q := fun s' => s' = section / 8 * 8 + 8).
           ++ eapply st_eq; [|eapply st_weak; [apply (st_addw U8 m (section / 8 * 8) 8); discriminate|]; intros ? (_ & _ & X3); apply X3; exact Y].
              apply dbg_cong. intros _. unfold q', q, U8. rewrite eq_iff_eq_true, !N.leb_le. dlia.
           ++ intros s' ->. apply st_ok. cbn [fst snd]. split; [exact Y|]. split; [exact HT|]. intros _. unfold q', q. dlia.
      * intros [s' t']. cbn [fst snd]. intros (S1 & T1 & Q1). eapply st_bind; [apply st_open; assumption|]. intros p Hp.
        eapply st_eq; [|apply (IH next' t' s' (14 + event_written i)%nat); try assumption; [eapply sec_snoc; eassumption|lia]].
        apply dbg_cong. intros Dm. rewrite (Q1 Dm), (N2 Dm). reflexivity.
    + destruct (N.to_nat 4092 <=? used + event_said i)%nat.
      * rewrite fill_b3. eapply st_bind with (Q := fun s' => s' < U8 /\ (dbg m = true -> s' = section + 1)).
        -- eapply st_eq; [|eapply st_weak; [apply (st_addw U8 m section 1); discriminate|]; intros ? (X1 & X2 & _); split; assumption].
           apply dbg_cong. intros _. unfold U8. rewrite eq_iff_eq_true, N.leb_le, N.eqb_eq. dlia.
        -- intros s' (S1 & S2). eapply st_bind; [apply st_open; assumption|]. intros p Hp.
           eapply st_eq; [|apply (IH next table s' (14 + event_written i)%nat); try assumption; [eapply sec_snoc; eassumption|lia]].
           apply dbg_cong. intros Dm. rewrite (S2 Dm). f_equal. lia.
      * rewrite andb_orb_distrib_r. eapply st_bind; [apply st_eiti'; [exact O1|apply HC]|]. intros b Hb.
        apply (IH next table section (used + event_written i)%nat); try assumption; [split; [exact Hb|apply HC]|lia].
Qed.
Lemma st_close last_table : last_table < 256 -> forall rl table last acc, Forall (sec 14) rl -> last < 256 -> Forall full acc ->
  st false (eit_close last_table rl table last acc) (fun l => Forall full l /\ length l = (length acc + length rl)%nat).
Proof.
  intros HL. induction rl as [|p r IH]; intros table last acc H L A; cbn [eit_close]; [apply st_ok; split; [exact A|cbn [length]; lia]|].
  inversion H as [|? ? HP HR]; subst. pose proof (B_self _ _ HP) as PB. destruct HP as (PL & PH & PZ).
  eapply st_seq; [eapply st_get; [exact PB|lia]|]. intros b0 B0. eapply st_seq; [eapply st_get; [exact PB|lia]|]. intros b6 B6. cbv beta in B0, B6. cbv zeta.
  assert (L' : (if negb (b0 =? table) then b6 else last) < 256) by (destruct (negb (b0 =? table)); assumption).
  set (last' := if negb (b0 =? table) then b6 else last) in *. set (table' := if negb (b0 =? table) then b0 else table). clearbody last' table'.
  step. eapply st_seq; [eapply st_get; [eassumption|lia]|]. intros x X. cbv beta in X. do 2 step.
  eapply st_seq; [apply st_finalize; eapply sec_done; [exact PZ|eassumption|lia]|]. intros q Q.
  eapply st_weak; [apply (IH table' last' (q :: acc)); [exact HR|exact L'|constructor; assumption]|]. intros l (L1 & L2). split; [exact L1|cbn [length] in *; lia].
Qed.
Lemma last_typed items : forall first, item_typed first -> Forall item_typed items -> item_typed (last items first).
Proof.
  induction items as [|i r IH]; intros first F H; [exact F|]. inversion H; subst. destruct r as [|j r]; [assumption|]. exact (IH first F H3).
Qed.
Lemma st_schedule m t first items : eit_table t < 2 ^ 8 -> item_typed first -> Forall item_typed items ->
  st (dbg m && schedule_over t first items) (eit_schedule m t first items) (fun l => Forall full l /\ l <> []).
Proof.
  intros T F H. unfold eit_schedule, schedule_over. cbv zeta. change DAY_DURATION with 86400. change SEG_DURATION with 10800. change (3 * 60 * 60) with 10800.
  change (2 ^ 8) with 256 in T. rewrite land_F0 by exact T. set (base := eit_table t / 16 * 16). assert (HB : base < 256) by (unfold base; dlia).
  set (day := eiti_start first / 86400 * 86400). pose proof (proj1 F) as F1. pose proof (proj1 (last_typed items first F H)) as F2.
  set (end_ := eiti_start (last items first)) in *. set (seg := (eiti_start first - day) / 10800).
  assert (HD : day <= eiti_start first < day + 86400) by (unfold day; dlia). assert (HG : seg < 8) by (unfold seg; dlia).
  rewrite !andb_orb_distrib_r, <- !orb_assoc.
  eapply st_bind with (Q := fun s => dbg m = true -> s = end_ - day).
  { unfold subw. rewrite N.ltb_antisym. destruct (day <=? end_); cbn [negb]; [rewrite andb_false_r; apply st_ok; auto|]. destruct m; [reflexivity|apply st_ok; discriminate]. }
  intros service HS.
  eapply st_bind with (Q := fun x => x < 256).
  { eapply st_eq; [|eapply st_weak; [apply (st_addw U8 m base (cast U8 (service / 10800 / 32))); discriminate|]; intros ? (X & _); exact X].
    apply dbg_cong. intros Dm. rewrite (HS Dm). reflexivity. }
  intros lt LT. eapply st_seq; [apply st_eit_init; cbn [eit_table]; exact HB|]. intros p Hp.
  assert (EN : N.of_nat (N.to_nat (seg + 1)) = seg + 1) by apply N2Nat.id.
  rewrite (leb_orb (day + 10800 * (seg + 1))), andb_orb_distrib_r, <- orb_assoc by lia.
  eapply st_bind; [eapply st_eq; [|apply (st_blank m base HB (N.to_nat (seg + 1)) p day 0 Hp)]|].
  { rewrite EN. reflexivity. }
  { eapply N.le_lt_trans; [apply HD|exact F1]. }
  { rewrite EN. lia. }
  intros [[bl mid] sc]. cbn [fst snd]. rewrite EN. intros (B1 & B2 & B3). cbn [N.add] in B3.
  assert (SC : sc = 8 * (seg + 1)) by lia. clear B3. subst sc.
  eapply st_bind with (Q := fun x => dbg m = true -> x = day + 10800 * (seg + 2)).
  { eapply st_eq; [|eapply st_weak; [apply (st_addw U64 m mid 10800); discriminate|]; intros x (_ & X & _) Dm; rewrite (X Dm), (B2 Dm); lia].
    apply dbg_cong. intros Dm. rewrite (B2 Dm). unfold U64. f_equal. lia. }
  intros next HN. eapply st_seq; [apply st_eit_init; exact T|]. intros p2 (P1 & P2). step.
  eapply st_then.
  { eapply st_eq; [|apply (st_fill m t T (first :: items) next base (8 * (seg + 1)) 14 bl); [constructor; assumption|exact HB|lia|exact B1|split; [cbn [with_buffer p_buffer]; eassumption|exact P2]|lia]].
    apply dbg_cong. intros Dm. rewrite (HN Dm). reflexivity. }
  intros l (L1 & L2). eapply st_weak; [apply st_close; [exact LT|apply Forall_rev; exact L1|reflexivity|constructor]|].
  intros r (R1 & R2). split; [exact R1|]. rewrite rev_length in R2. destruct r; [|discriminate]. destruct l; [congruence|discriminate].
Qed.
Lemma st_send m pid : forall l cc dst, Forall full l -> bytes dst -> cc < 256 ->
  st (dbg m && (negb (match l with [] => true | _ => false end) && address_over pid cc)) (eit_send m pid l cc dst) (fun _ => True).
Proof.
  induction l as [|p r IH]; intros cc dst H D C; cbn [eit_send negb andb]; [rewrite andb_false_r; apply st_ok; trivial|].
  inversion H as [|? ? HP HR]; subst.
  assert (E : dbg m && address_over pid cc = dbg m && address_over pid cc || dbg m && (negb (match r with [] => true | _ => false end) && address_over pid 0)).
  { destruct (dbg m); [|reflexivity]. cbn [andb]. unfold address_over. destruct (8192 <=? pid), (16 <=? cc), r; reflexivity. }
  rewrite E. eapply st_bind; [exact (st_demux m (with_cc (with_pid p pid) cc) dst HP D C)|]. intros [q' d']. cbn [fst snd with_cc with_pid p_pid]. intros (W1 & W2 & W3).
  eapply st_eq; [|apply (IH (p_cc q') d' HR W1); lia]. do 2 f_equal. unfold address_over. apply N.leb_gt in W2. rewrite W2. reflexivity.
Qed.
Lemma st_eit m t pid cc dst : eit_typed t -> bytes dst -> cc < 256 -> st (dbg m && eit_over t pid cc) (eit_demux m t pid cc dst) (fun _ => True).
Proof.
  intros (T1 & T2 & T3 & T4 & T5 & T6) D C. unfold eit_demux, eit_sections, eit_over.
  assert (TI : Forall item_typed (eit_items t)).
  { eapply Forall_impl; [|exact T6]. intros i (_ & X1 & X2 & _ & _ & X3). split; [|split]; assumption. }
  destruct (eit_items t) as [|first items] eqn:EI.
  - rewrite andb_false_r. cbn [bind eit_send]. apply st_ok. trivial.
  - inversion TI as [|? ? F1 F2]; subst. rewrite orb_comm, andb_orb_distrib_r.
    assert (S : forall l, (Forall full l /\ l <> []) -> st (dbg m && address_over pid cc) (eit_send m pid l cc dst) (fun _ => True)).
    { intros l (L1 & L2). pose proof (st_send m pid l cc dst L1 D C) as X. destruct l; [congruence|]. exact X. }
    destruct ((eit_table t =? 0x4E) || (eit_table t =? 0x4F)).
    + eapply st_bind; [apply (st_pf m t); [apply cast8|exact T1|exact TI]|]. intros l (L1 & L2). apply S. split; [exact L1|]. destruct l; discriminate.
    + eapply st_bind; [apply (st_schedule m t first items T1 F1 F2)|]. exact S.
Qed.
Lemma eit_stops t pid cc dst : eit_typed t -> bytes dst -> cc < 2 ^ 8 -> stops_if (fun m => eit_demux m t pid cc dst) (eit_over t pid cc).
Proof. intros T D C. eapply st_final. intros m. exact (st_eit m t pid cc dst T D C). Qed.

Lemma desc_ends m d b r : desc_typed d -> bytes b -> desc_assemble m d b = Ok r -> exists x, r = b ++ x /\ length x = written d /\ bytes x.
Proof.
  intros T H E. pose proof (K_desc m d b) as X. rewrite E in X. destruct X as (x & ->). exists x. split; [reflexivity|].
  pose proof (st_desc m d (length b) b T (conj eq_refl H)) as S. unfold st in S. rewrite E in S. destruct (dbg m && desc_over d); [discriminate|].
  destruct S as (a & A & (L & Y)). injection A as <-. rewrite app_length in L. apply bytes_app in Y. split; [lia|apply Y].
Qed.

Lemma over4_big v : over4 v = true -> 10 ^ 4 <= v.
Proof. unfold over4. rewrite N.leb_le. intros H. change (10 ^ 4) with 10000. dlia. Qed.
Lemma over8_big v : over8 v = true -> 10 ^ 8 <= v.
Proof. unfold over8. intros H. apply over4_big in H. change (10 ^ 4) with 10000 in H. change (10 ^ 8) with 100000000. dlia. Qed.
Lemma over_big d : desc_over d = true -> match d with
  | D43 d => 10 ^ 8 <= d43_freq d / 10 \/ 10 ^ 4 <= d43_orbital d / 6 \/ 10 ^ 8 <= d43_rate d
  | D44 d => 10 ^ 8 <= d44_freq d / 100 \/ 10 ^ 8 <= d44_rate d
  | _ => False end.
Proof.
  destruct d; cbn [desc_over]; try discriminate; intros H.
  - apply orb_true_iff in H. destruct H as [H|H]; [apply orb_true_iff in H; destruct H as [H|H]|].
    + left. apply over8_big, H.
    + right. left. apply over4_big, H.
    + right. right. apply over8_big, H.
  - apply orb_true_iff in H. destruct H as [H|H]; [left|right]; apply over8_big, H.
Qed.

(** Proofs: EIT schedule tables. *)
From Verif Require Import Prelude Layout Facts Facts2 S_ts S_crc S_utils S_psi M_bytes M_ts M_crc M_utils M_psi M_drive M_recv M_desc S_desc
  M_tables S_tables P_bytes P_crc P_utils P_psi P_mux P_mux2 P_sect P_mux3 P_desc P_desc2 P_desc3 W_psi W_desc P_tab P_tab2 P_tab3 P_tab4 P_tab5 P_eit.

(** ** the distribution of the events over sections: table, number, items *)
Definition part : Type := N * N * list eit_item.
Definition part_items (x : part) : list eit_item := let '(_, _, g) := x in g.
Definition part_table (x : part) : N := let '(tb, _, _) := x in tb.
Definition part_num (x : part) : N := let '(_, n, _) := x in n.
Definition part_raw (t : eit) (x : part) : psi := let '(tb, n, g) := x in eraw t tb n 0 0 0 g.
Definition big (i : eit_item) (g : list eit_item) : bool := (EIT_SECTION_SIZE <=? length (eit_entry i) + (14 + length (flat_map eit_entry g)))%nat.

Fixpoint plan (m : mode) (items : list eit_item) (next tb sec : N) (cur : part) : res (list part) :=
  match items with
  | [] => Ok [cur]
  | i :: r =>
    if next <=? eiti_start i then
      next <- addw U64 m next SEG_DURATION ;;
      let s := sec / 8 * 8 in
      ' (s, tb) <- (if s =? 248 then (tb <- addw U8 m tb 1 ;; Ok (0, tb)) else (s <- addw U8 m s 8 ;; Ok (s, tb))) ;;
      l <- plan m r next tb s (tb, s, [i]) ;; Ok (cur :: l)
    else if big i (part_items cur) then
      s <- addw U8 m sec 1 ;;
      l <- plan m r next tb s (tb, s, [i]) ;; Ok (cur :: l)
    else plan m r next tb sec (part_table cur, part_num cur, part_items cur ++ [i])
  end.

Lemma eit_open_spec m t tb s i : eit_item_ok i -> eit_open m t tb s i = Ok (eraw t tb s 0 0 0 [i]).
Proof.
  intros H. unfold eit_open. rewrite eraw_init. cbn [bind]. rewrite eraw_0. cbn [bind]. rewrite eraw_6. cbn [bind].
  rewrite eraw_item by assumption. cbn [bind app]. rewrite eraw_with. reflexivity.
Qed.

Lemma eit_fill_spec m t : forall items next tb sec done cur, Forall eit_item_ok items ->
  eit_fill m t items next tb sec done (part_raw t cur) = (l <- plan m items next tb sec cur ;; Ok (done ++ map (part_raw t) l)).
Proof.
  induction items as [|i items IH]; intros next tb sec done cur F; [reflexivity|]. inversion F; subst. cbn [eit_fill plan].
  destruct cur as [[ct cn] cg]. cbn [part_raw part_items part_table part_num]. rewrite eraw_len. rewrite (proj2 (eit_item_spec m i [] H1)).
  unfold big. destruct (next <=? eiti_start i).
  - destruct (addw U64 m next SEG_DURATION) as [nx| |]; cbn [bind]; try reflexivity.
    destruct (sec / 8 * 8 =? 248).
    + destruct (addw U8 m tb 1) as [tb'| |]; cbn [bind]; try reflexivity. rewrite eit_open_spec by assumption. cbn [bind].
      rewrite (IH nx tb' 0 _ (tb', 0, [i])) by assumption. destruct (plan _ _ _ _ _ _); cbn [bind]; try reflexivity.
      cbn [map]. rewrite <- app_assoc. reflexivity.
    + destruct (addw U8 m (sec / 8 * 8) 8) as [s'| |]; cbn [bind]; try reflexivity. rewrite eit_open_spec by assumption. cbn [bind].
      rewrite (IH nx tb s' _ (tb, s', [i])) by assumption. destruct (plan _ _ _ _ _ _); cbn [bind]; try reflexivity.
      cbn [map]. rewrite <- app_assoc. reflexivity.
  - destruct (EIT_SECTION_SIZE <=? length (eit_entry i) + (14 + length (flat_map eit_entry cg)))%nat.
    + destruct (addw U8 m sec 1) as [s'| |]; cbn [bind]; try reflexivity. rewrite eit_open_spec by assumption. cbn [bind].
      rewrite (IH next tb s' _ (tb, s', [i])) by assumption. destruct (plan _ _ _ _ _ _); cbn [bind]; try reflexivity.
      cbn [map]. rewrite <- app_assoc. reflexivity.
    + rewrite eraw_item by assumption. cbn [bind]. rewrite eraw_with. apply (IH next tb sec done (ct, cn, cg ++ [i])). assumption.
Qed.

(** ** blank sections *)
Fixpoint blanks (n : nat) (tb s : N) : list part := match n with O => [] | S k => (tb, s, []) :: blanks k tb (s + 8) end.
Lemma eit_blank_spec m t tb : forall n x mid s, mid + SEG_DURATION * N.of_nat n < U64 -> s + 8 * N.of_nat n < 256 ->
  eit_blank m n tb (eraw t x s 0 0 0 []) mid s = Ok (map (part_raw t) (blanks n tb s), mid + SEG_DURATION * N.of_nat n, s + 8 * N.of_nat n) /\
  forall s0, eit_blank m n tb (eraw t x s0 0 0 0 []) mid s = eit_blank m n tb (eraw t x s 0 0 0 []) mid s.
Proof.
  assert (Z : forall n x mid s, mid + SEG_DURATION * N.of_nat n < U64 -> s + 8 * N.of_nat n < 256 -> forall s0,
    eit_blank m n tb (eraw t x s0 0 0 0 []) mid s = Ok (map (part_raw t) (blanks n tb s), mid + SEG_DURATION * N.of_nat n, s + 8 * N.of_nat n)).
  { induction n as [|n IH]; intros x mid s H1 H2 s0.
    - cbn [eit_blank blanks map]. change (N.of_nat 0) with 0. rewrite !N.mul_0_r, !N.add_0_r. reflexivity.
    - cbn [eit_blank]. rewrite eraw_0. cbn [bind]. rewrite eraw_6. cbn [bind]. rewrite eraw_with.
      rewrite addw_ok by (unfold U64, SEG_DURATION in *; lia). cbn [bind]. rewrite (addw_ok U8) by (unfold U8; lia). cbn [bind].
      rewrite IH by lia. cbn [bind blanks map part_raw]. do 2 f_equal; [f_equal|]; lia. }
  intros n x mid s H1 H2. split; [apply Z; assumption|]. intros s0. rewrite !Z by assumption. reflexivity.
Qed.

(** ** closing *)
Fixpoint seal (lt : N) (rl : list part) (table last : N) : list slot :=
  match rl with
  | [] => []
  | (tb, n, g) :: r => let last := if tb =? table then last else n in (tb, n, last, n, lt, g) :: seal lt r tb last
  end.
Definition sealing (lt : N) (l : list part) : list slot := rev (seal lt (rev l) 0 0).
Definition part_ok (x : part) : Prop :=
  part_table x < 256 /\ part_num x < 256 /\ Forall eit_item_ok (part_items x) /\ (18 + length (flat_map eit_entry (part_items x)) <= N.to_nat 4098)%nat.

Lemma eit_close_spec t lt : lt < 256 -> forall rl table last acc, last < 256 -> Forall part_ok rl ->
  eit_close lt (map (part_raw t) rl) table last acc = Ok (rev (map (fun s => sealed (slot_section t s)) (seal lt rl table last)) ++ acc) /\
  Forall section_ok (map (slot_section t) (seal lt rl table last)).
Proof.
  intros Hlt. induction rl as [|[[tb n] g] rl IH]; intros table last acc Hl F; [split; [reflexivity|constructor]|].
  inversion F as [|? ? (P1 & P2 & P3 & P4) F']; subst. cbn [part_table part_num part_items] in *.
  cbn [map eit_close seal part_raw].
  change (get (p_buffer (eraw t tb n 0 0 0 g)) 0) with (Ok tb). cbn [bind].
  change (get (p_buffer (eraw t tb n 0 0 0 g)) 6) with (Ok n). cbn [bind].
  replace (if negb (tb =? table) then n else last) with (if tb =? table then last else n) by (destruct (tb =? table); reflexivity).
  replace (if negb (tb =? table) then tb else table) with tb by (destruct (N.eqb_spec tb table); cbn [negb]; congruence).
  set (last' := if tb =? table then last else n). assert (Hl' : last' < 256) by (subst last'; destruct (tb =? table); assumption).
  rewrite eraw_7. cbn [bind]. change (get (p_buffer (eraw t tb n last' 0 0 g)) 6) with (Ok n). cbn [bind].
  rewrite eraw_seg by lia. cbn [bind]. rewrite eraw_table by lia. cbn [bind]. rewrite eraw_with.
  destruct (eraw_fin t tb n last' n lt g P1 P2 Hl' P3 P4) as [E K]. rewrite E. cbn [bind].
  destruct (IH tb last' (sealed (eit_section t tb n last' n lt g) :: acc) Hl' F') as [E2 K2].
  change (mkPsi (eit_section t tb n last' n lt g) (length (eit_section t tb n last' n lt g)) 0 0) with (sealed (eit_section t tb n last' n lt g)).
  rewrite E2. cbn [map rev slot_section]. rewrite <- app_assoc. split; [reflexivity|]. constructor; assumption.
Qed.

Lemma map_rev_slots t l : rev (map (fun s => sealed (slot_section t s)) l) = map sealed (map (slot_section t) (rev l)).
Proof. rewrite map_map, map_rev. reflexivity. Qed.

(** ** facts about [plan] *)
Lemma plan_items m : forall items next tb sec cur l, plan m items next tb sec cur = Ok l ->
  concat (map part_items l) = part_items cur ++ items.
Proof.
  induction items as [|i items IH]; intros next tb sec cur l E; cbn [plan] in E.
  - injection E as <-. cbn [map concat]. reflexivity.
  - destruct (next <=? eiti_start i).
    + apply bind_inv in E as (nx & _ & E). apply bind_inv in E as ([s tb'] & _ & E). apply bind_inv in E as (l' & E & E').
      injection E' as <-. apply IH in E. cbn [map concat]. rewrite E. reflexivity.
    + destruct (big i (part_items cur)).
      * apply bind_inv in E as (s & _ & E). apply bind_inv in E as (l' & E & E'). injection E' as <-. apply IH in E. cbn [map concat]. rewrite E. reflexivity.
      * apply IH in E. cbn [part_items] in E. rewrite E, <- app_assoc. reflexivity.
Qed.
Lemma plan_head m : forall items next tb sec cur l, plan m items next tb sec cur = Ok l ->
  exists g r, l = (part_table cur, part_num cur, part_items cur ++ g) :: r.
Proof.
  induction items as [|i items IH]; intros next tb sec cur l E; cbn [plan] in E.
  - injection E as <-. exists [], []. rewrite app_nil_r. destruct cur as [[? ?] ?]. reflexivity.
  - assert (C : cur = (part_table cur, part_num cur, part_items cur ++ [])) by (rewrite app_nil_r; destruct cur as [[? ?] ?]; reflexivity).
    destruct (next <=? eiti_start i).
    + apply bind_inv in E as (nx & _ & E). apply bind_inv in E as ([s tb'] & _ & E). apply bind_inv in E as (l' & E & E').
      injection E' as <-. exists [], l'. rewrite <- C. reflexivity.
    + destruct (big i (part_items cur)).
      * apply bind_inv in E as (s & _ & E). apply bind_inv in E as (l' & E & E'). injection E' as <-. exists [], l'. rewrite <- C. reflexivity.
      * apply IH in E. cbn [part_items part_table part_num] in E. destruct E as (g & r & ->). exists (i :: g), r. rewrite <- app_assoc. reflexivity.
Qed.
Lemma addw_lt w m a b c : addw w m a b = Ok c -> w <> 0 -> a < w -> c < w.
Proof.
  unfold addw. intros E H Ha. destruct (N.ltb_spec (a + b) w) as [L|L]; [congruence|]. destruct m; [discriminate|].
  injection E as <-. apply N.mod_lt. assumption.
Qed.

(** sizes and ranges *)
Definition small (n : nat) (x : part) : Prop :=
  (18 + length (flat_map eit_entry (part_items x)) <= n)%nat.
Lemma plan_ok m n : (N.to_nat 4096 <= n)%nat -> forall items next tb sec cur l,
  Forall (fun i => (18 + length (eit_entry i) <= n)%nat) items -> small n cur -> tb < 256 -> sec < 256 -> part_table cur < 256 -> part_num cur < 256 ->
  plan m items next tb sec cur = Ok l -> Forall (fun x => small n x /\ part_table x < 256 /\ part_num x < 256) l.
Proof.
  intros Hn. induction items as [|i items IH]; intros next tb sec cur l F S1 T1 T2 T3 T4 E; cbn [plan] in E.
  - injection E as <-. repeat constructor; assumption.
  - inversion F as [|? ? Hi F']; subst.
    assert (SI : forall a b, small n (a, b, [i])) by (intros a b; unfold small; cbn [part_items flat_map]; rewrite app_nil_r; assumption).
    destruct (next <=? eiti_start i).
    + apply bind_inv in E as (nx & _ & E). apply bind_inv in E as ([s tb'] & Es & E). apply bind_inv in E as (l' & E & E'). injection E' as <-.
      constructor; [repeat split; assumption|].
      assert (R : tb' < 256 /\ s < 256).
      { destruct (sec / 8 * 8 =? 248).
        - apply bind_inv in Es as (v & Ev & Es). injection Es as <- <-. split; [|lia]. apply (addw_lt U8 m tb 1); [assumption|discriminate|assumption].
        - apply bind_inv in Es as (v & Ev & Es). injection Es as <- <-. split; [assumption|].
          apply (addw_lt U8 m (sec / 8 * 8) 8); [assumption|discriminate|]. unfold U8. clear - T2. dlia. }
      destruct R as [R1 R2]. apply (IH nx tb' s (tb', s, [i])); try assumption; apply SI.
    + destruct (big i (part_items cur)) eqn:B.
      * apply bind_inv in E as (s & Es & E). apply bind_inv in E as (l' & E & E'). injection E' as <-. constructor; [repeat split; assumption|].
        assert (R : s < 256) by (apply (addw_lt U8 m sec 1); [assumption|discriminate|assumption]).
        apply (IH next tb s (tb, s, [i])); try assumption; apply SI.
      * eapply IH; [exact F'| |exact T1|exact T2| | |exact E]; try assumption.
        unfold big, EIT_SECTION_SIZE in B. apply Nat.leb_gt in B. unfold small. cbn [part_items]. rewrite flat_map_app. cbn [flat_map].
        rewrite app_nil_r, app_length. change (4096 - 4) with 4092 in B. lia.
Qed.

(** the table id stays below [T] *)
Lemma plan_tables m T : T <= 256 -> forall items next tb sec cur l,
  sec < 256 -> 256 * tb + sec + 8 * N.of_nat (length items) < 256 * T -> plan m items next tb sec cur = Ok l ->
  Forall (fun x => part_table x = part_table cur \/ tb <= part_table x < T) l.
Proof.
  intros HT. induction items as [|i items IH]; intros next tb sec cur l T2 B E; cbn [plan] in E.
  - injection E as <-. repeat constructor.
  - cbn [length] in B. destruct (next <=? eiti_start i).
    + apply bind_inv in E as (nx & _ & E). apply bind_inv in E as ([s tb'] & Es & E). apply bind_inv in E as (l' & E & E'). injection E' as <-.
      constructor; [left; reflexivity|].
      assert (R : s < 256 /\ tb <= tb' /\ 256 * tb' + s <= 256 * tb + sec + 8).
      { destruct (N.eqb_spec (sec / 8 * 8) 248) as [E8|E8].
        - apply bind_inv in Es as (v & Ev & Es). injection Es as <- <-. rewrite addw_ok in Ev by (unfold U8; lia). injection Ev as <-.
          clear - E8 T2. dlia.
        - apply bind_inv in Es as (v & Ev & Es). injection Es as <- <-.
          rewrite addw_ok in Ev by (unfold U8; clear - E8 T2; dlia). injection Ev as <-. clear - E8 T2. dlia. }
      destruct R as (R1 & R2 & R3). apply IH in E; [|assumption|lia]. cbn [part_table] in E.
      eapply Forall_impl; [|exact E]. intros x Hx. cbv beta in Hx. right. lia.
    + destruct (big i (part_items cur)).
      * apply bind_inv in E as (s & Es & E). apply bind_inv in E as (l' & E & E'). injection E' as <-. constructor; [left; reflexivity|].
        assert (R : s < 256 /\ s <= sec + 1).
        { unfold addw, U8 in Es. destruct (N.ltb_spec (sec + 1) 256); [injection Es as <-; lia|]. destruct m; [discriminate|]. injection Es as <-. clear - T2 H. dlia. }
        apply IH in E; [|lia|lia]. cbn [part_table] in E. eapply Forall_impl; [|exact E]. intros x Hx. cbv beta in Hx. right. lia.
      * apply IH in E; [|assumption|lia]. exact E.
Qed.

(** (table, number) increases strictly when nothing overflows *)
Fixpoint rising (p : N) (l : list part) : Prop :=
  match l with [] => True | x :: r => p < 256 * part_table x + part_num x /\ rising (256 * part_table x + part_num x) r end.
Lemma plan_rising : forall items next tb sec cur l, sec < 256 -> part_table cur = tb -> part_num cur = sec ->
  plan Debug items next tb sec cur = Ok l -> exists r, l = hd cur l :: r /\ part_table (hd cur l) = tb /\ part_num (hd cur l) = sec /\ rising (256 * tb + sec) r.
Proof.
  induction items as [|i items IH]; intros next tb sec cur l T2 C1 C2 E; cbn [plan] in E.
  - injection E as <-. exists []. repeat split; assumption.
  - assert (DA : forall a b c, addw U8 Debug a b = Ok c -> c = a + b /\ c < 256).
    { intros a b c. unfold addw, U8. destruct (N.ltb_spec (a + b) 256); [|discriminate]. intros Q. injection Q as <-. lia. }
    destruct (next <=? eiti_start i).
    + apply bind_inv in E as (nx & _ & E). apply bind_inv in E as ([s tb'] & Es & E). apply bind_inv in E as (l' & E & E'). injection E' as <-.
      exists l'. cbn [hd]. repeat split; try assumption.
      assert (R : s < 256 /\ 256 * tb + sec < 256 * tb' + s).
      { destruct (N.eqb_spec (sec / 8 * 8) 248) as [E8|E8].
        - apply bind_inv in Es as (v & Ev & Es). injection Es as <- <-. apply DA in Ev. lia.
        - apply bind_inv in Es as (v & Ev & Es). injection Es as <- <-. apply DA in Ev as [-> Ev]. split; [assumption|]. clear - T2. dlia. }
      destruct R as [R1 R2]. apply IH in E; [|assumption|reflexivity|reflexivity]. destruct E as (r & -> & Q1 & Q2 & Q3). cbn [rising hd] in *.
      rewrite Q1, Q2. split; assumption.
    + destruct (big i (part_items cur)).
      * apply bind_inv in E as (s & Es & E). apply bind_inv in E as (l' & E & E'). injection E' as <-. exists l'. cbn [hd]. repeat split; try assumption.
        apply DA in Es as [-> Es]. apply IH in E; [|assumption|reflexivity|reflexivity]. destruct E as (r & -> & Q1 & Q2 & Q3). cbn [rising hd] in *.
        rewrite Q1, Q2. split; [lia|assumption].
      * apply IH in E; [|assumption|assumption|assumption]. destruct E as (r & -> & Q1 & Q2 & Q3). exists r. cbn [hd] in *. repeat split; assumption.
Qed.

(** no overflow *)
Lemma plan_release : forall items next tb sec cur, exists l, plan Release items next tb sec cur = Ok l.
Proof.
  induction items as [|i items IH]; intros next tb sec cur; cbn [plan]; [eexists; reflexivity|].
  assert (R : forall w a b, exists c, addw w Release a b = Ok c) by (intros w a b; unfold addw; destruct (a + b <? w); eexists; reflexivity).
  destruct (next <=? eiti_start i).
  - destruct (R U64 next SEG_DURATION) as [nx ->]. cbn [bind]. destruct (sec / 8 * 8 =? 248).
    + destruct (R U8 tb 1) as [tb' ->]. cbn [bind]. destruct (IH nx tb' 0 (tb', 0, [i])) as [l ->]. eexists; reflexivity.
    + destruct (R U8 (sec / 8 * 8) 8) as [s' ->]. cbn [bind]. destruct (IH nx tb s' (tb, s', [i])) as [l ->]. eexists; reflexivity.
  - destruct (big i (part_items cur)); [|apply IH]. destruct (R U8 sec 1) as [s' ->]. cbn [bind]. destruct (IH next tb s' (tb, s', [i])) as [l ->]. eexists; reflexivity.
Qed.
Lemma addw_debug w m a b c : addw w Debug a b = Ok c -> addw w m a b = Ok c.
Proof. unfold addw. destruct (a + b <? w); [trivial|discriminate]. Qed.
Lemma plan_debug m : forall items next tb sec cur l, plan Debug items next tb sec cur = Ok l -> plan m items next tb sec cur = Ok l.
Proof.
  induction items as [|i items IH]; intros next tb sec cur l E; cbn [plan] in *; [assumption|].
  destruct (next <=? eiti_start i).
  - apply bind_inv in E as (nx & E1 & E). apply (addw_debug _ m) in E1. rewrite E1. cbn [bind] in *. destruct (sec / 8 * 8 =? 248).
    + apply bind_inv in E as ([s tb'] & E2 & E). apply bind_inv in E2 as (v & E2 & E3). apply (addw_debug _ m) in E2. rewrite E2. cbn [bind]. injection E3 as <- <-.
      apply bind_inv in E as (l' & E & E'). rewrite (IH _ _ _ _ _ E). exact E'.
    + apply bind_inv in E as ([s tb'] & E2 & E). apply bind_inv in E2 as (v & E2 & E3). apply (addw_debug _ m) in E2. rewrite E2. cbn [bind]. injection E3 as <- <-.
      apply bind_inv in E as (l' & E & E'). rewrite (IH _ _ _ _ _ E). exact E'.
  - destruct (big i (part_items cur)); [|apply IH, E]. apply bind_inv in E as (s & E2 & E). apply (addw_debug _ m) in E2. rewrite E2. cbn [bind].
    apply bind_inv in E as (l' & E & E'). rewrite (IH _ _ _ _ _ E). exact E'.
Qed.
(** few events, or events that all fit one section *)
Lemma plan_few : forall items next tb sec cur, next < 2 ^ 40 -> Forall (fun i => eiti_start i < MJD_END) items -> tb + 1 < 256 ->
  sec + 8 * N.of_nat (length items) < 256 -> exists l, plan Debug items next tb sec cur = Ok l.
Proof.
  induction items as [|i items IH]; intros next tb sec cur Hn F Ht Hs; cbn [plan]; [eexists; reflexivity|]. inversion F; subst. cbn [length] in Hs.
  destruct (N.leb_spec next (eiti_start i)) as [L|L].
  - unfold MJD_END in *. rewrite addw_ok by (unfold U64, SEG_DURATION; lia). cbn [bind].
    destruct (N.eqb_spec (sec / 8 * 8) 248) as [E8|E8]; [exfalso; clear - E8 Hs; dlia|].
    rewrite addw_ok by (unfold U8; clear - Hs; dlia). cbn [bind].
    destruct (IH (next + SEG_DURATION) tb (sec / 8 * 8 + 8) (tb, sec / 8 * 8 + 8, [i])) as [l ->]; try assumption; [unfold SEG_DURATION; change (2 ^ 40) with 1099511627776; lia|clear - Hs; dlia|]. eexists; reflexivity.
  - destruct (big i (part_items cur)); [|apply IH; try assumption; lia]. rewrite addw_ok by (unfold U8; lia). cbn [bind].
    destruct (IH next tb (sec + 1) (tb, sec + 1, [i])) as [l ->]; try assumption; [lia|]. eexists; reflexivity.
Qed.
Lemma plan_light : forall items next tb sec cur, next < 2 ^ 40 -> Forall (fun i => eiti_start i < MJD_END) items ->
  sec < 256 -> 256 * tb + sec + 8 * N.of_nat (length items) < 256 * 256 ->
  (14 + length (flat_map eit_entry (part_items cur)) + length (flat_map eit_entry items) < EIT_SECTION_SIZE)%nat ->
  exists l, plan Debug items next tb sec cur = Ok l.
Proof.
  induction items as [|i items IH]; intros next tb sec cur Hn F Hs Ht HL; cbn [plan]; [eexists; reflexivity|]. inversion F; subst.
  cbn [length flat_map] in Ht, HL. rewrite app_length in HL.
  destruct (N.leb_spec next (eiti_start i)) as [L|L].
  - unfold MJD_END in *. rewrite addw_ok by (unfold U64, SEG_DURATION; lia). cbn [bind].
    assert (N2 : next + SEG_DURATION < 2 ^ 40) by (unfold SEG_DURATION; change (2 ^ 40) with 1099511627776; lia).
    assert (LL : forall a b, (14 + length (flat_map eit_entry (part_items (a, b, [i]))) + length (flat_map eit_entry items) < EIT_SECTION_SIZE)%nat).
    { intros a b. cbn [part_items flat_map]. rewrite app_nil_r. lia. }
    destruct (N.eqb_spec (sec / 8 * 8) 248) as [E8|E8].
    + rewrite addw_ok by (unfold U8; lia). cbn [bind].
      destruct (IH (next + SEG_DURATION) (tb + 1) 0 (tb + 1, 0, [i])) as [l ->]; try assumption; [lia|clear - E8 Ht Hs; dlia|apply LL|eexists; reflexivity].
    + rewrite addw_ok by (unfold U8; clear - E8 Hs; dlia). cbn [bind].
      destruct (IH (next + SEG_DURATION) tb (sec / 8 * 8 + 8) (tb, sec / 8 * 8 + 8, [i])) as [l ->]; try assumption; [clear - E8 Hs; dlia|clear - Ht Hs; dlia|apply LL|eexists; reflexivity].
  - unfold big. destruct (Nat.leb_spec EIT_SECTION_SIZE (length (eit_entry i) + (14 + length (flat_map eit_entry (part_items cur))))); [lia|].
    apply IH; try assumption; [lia|]. cbn [part_items]. rewrite flat_map_app, app_length. cbn [flat_map]. rewrite app_nil_r. lia.
Qed.

(** Proofs: measuring the jitter of PCR values. *)
From Verif Require Import Prelude Facts M_ts P_pcr M_measure S_measure.

Lemma jitter_near m stc pcr e : (-27000000 <= e <= 27000000)%Z -> (0 <= Z.of_N stc + e < 2 * 2576980377600)%Z ->
  Z.of_N pcr = ((Z.of_N stc + e) mod 2576980377600)%Z ->
  pcr_jitter_ns m pcr stc =
    if (Z.of_N stc + e <? 2576980377600)%Z then Ok (ns e)
    else if (0 <? e)%Z then Ok (ns (e - 1)) else match m with Debug => Panic | Release => Ok (ns (e - 1)) end.
Proof.
  intros He Hs E. destruct (Z.ltb_spec (Z.of_N stc + e) 2576980377600) as [L|L].
  - rewrite Z.mod_small in E by lia. destruct (N.ltb_spec pcr stc) as [H|H].
    + rewrite (pcr_jitter_core m pcr stc (pcr + 2576980377599 - stc)) by
        (first [lia | apply N.ltb_lt in H as H'; rewrite H'; change PCR_MAX with 2576980377599; unfold U64; rewrite addw_ok by lia; cbn [bind]; rewrite subw_ok by lia; reflexivity]).
      destruct (Z.ltb_spec 27000000 (Z.of_N (pcr + 2576980377599 - stc))); [|lia]. unfold ticks_to_ns, ns. do 3 f_equal. lia.
    + rewrite (pcr_jitter_core m pcr stc (pcr - stc)) by (first [lia | apply N.ltb_ge in H as H'; rewrite H'; reflexivity]).
      destruct (Z.ltb_spec 27000000 (Z.of_N (pcr - stc))); [lia|]. unfold ticks_to_ns, ns. do 3 f_equal. lia.
  - assert (E' : Z.of_N pcr = (Z.of_N stc + e - 2576980377600)%Z).
    { rewrite E. symmetry. apply (Z.mod_unique _ _ 1); lia. }
    assert (H : pcr < stc) by lia. destruct (Z.ltb_spec 0 e) as [P|P].
    + rewrite (pcr_jitter_core m pcr stc (pcr + 2576980377599 - stc)) by
        (first [lia | apply N.ltb_lt in H as H'; rewrite H'; change PCR_MAX with 2576980377599; unfold U64; rewrite addw_ok by lia; cbn [bind]; rewrite subw_ok by lia; reflexivity]).
      destruct (Z.ltb_spec 27000000 (Z.of_N (pcr + 2576980377599 - stc))); [lia|]. unfold ticks_to_ns, ns. do 3 f_equal. lia.
    + unfold pcr_jitter_ns. apply N.ltb_lt in H as H'. rewrite H'. change PCR_MAX with 2576980377599. unfold U64. rewrite addw_ok by lia. cbn [bind].
      unfold subw. destruct (N.leb_spec stc (pcr + 2576980377599)) as [Q|Q]; [lia|]. destruct m; cbn [bind]; [reflexivity|].
      unfold i64_of_u64. destruct (N.ltb_spec (18446744073709551616 + (pcr + 2576980377599) - stc) 9223372036854775808); [lia|].
      change (Z.of_N PCR_SYSTEM_CLOCK) with 27000000%Z. change (Z.of_N PCR_CLOCK_US) with 27%Z.
      replace (Z.of_N (18446744073709551616 + (pcr + 2576980377599) - stc) - 18446744073709551616)%Z with (e - 1)%Z by lia.
      destruct (Z.ltb_spec 27000000 (e - 1)); [lia|]. cbn [bind]. rewrite i64_op_ok by lia. reflexivity.
Qed.

(** one step of the measurement *)
Definition step (m : mode) (a b nb c nc : N) : res Z :=
  delta <- pcr_delta m a b ;; stc <- pcr_to_stc m b nc delta nb ;; pcr_jitter_ns m c stc.
Lemma measure_cons m a b nb c nc l : measure m a b nb ((c, nc) :: l) = (j <- step m a b nb c nc ;; r <- measure m b c nc l ;; Ok (j :: r)).
Proof.
  cbn [measure]. unfold step. destruct (pcr_delta m a b) as [d| |]; cbn [bind]; try reflexivity.
  destruct (pcr_to_stc m b nc d nb) as [x| |]; cbn [bind]; reflexivity.
Qed.
Lemma to_stc m last nb delta lb : delta < 2 ^ 32 -> nb < 2 ^ 32 -> 0 < lb -> last < 2 ^ 60 -> delta * nb / lb < 2 ^ 60 ->
  pcr_to_stc m last nb delta lb = Ok (delta * nb / lb + last).
Proof.
  intros H1 H2 H3 H4 H5. unfold pcr_to_stc. rewrite mulw_ok by (unfold U64; nia). cbn [bind]. unfold divw. destruct (N.eqb_spec lb 0); [lia|]. cbn [bind].
  rewrite addw_ok by (unfold U64; lia). reflexivity.
Qed.
(** [da] is what pcr_delta says, the next interval is [dc] *)
Lemma step_value m t0 t1 nb dc nc da (e : Z) : pcr_delta m (t0 mod PERIOD) (t1 mod PERIOD) = Ok da -> da <= 27000000 -> 0 < nb -> nc < 2 ^ 32 -> dc <= 27000000 ->
  (Z.of_N (da * nc / nb) + e = Z.of_N dc)%Z -> (-27000000 <= e <= 27000000)%Z ->
  step m (t0 mod PERIOD) (t1 mod PERIOD) nb ((t1 + dc) mod PERIOD) nc =
    if turns (t1 + dc) =? turns t1 then Ok (ns e)
    else if (0 <? e)%Z then Ok (ns (e - 1)) else match m with Debug => Panic | Release => Ok (ns (e - 1)) end.
Proof.
  intros D Hd Hb Hn Hc E He. unfold step. rewrite D. cbn [bind]. unfold turns. change PERIOD with 2576980377600 in *.
  pose proof (N.mod_lt t1 2576980377600 ltac:(discriminate)) as M. pose proof (N.div_mod' t1 2576980377600) as Q.
  set (b := t1 mod 2576980377600) in *. set (k := t1 / 2576980377600) in *. set (f := da * nc / nb) in *.
  rewrite to_stc by (subst f; lia). fold f. cbn [bind].
  assert (X : (t1 + dc) mod 2576980377600 = (b + dc) mod 2576980377600).
  { rewrite Q. rewrite <- N.add_assoc, (N.add_comm (2576980377600 * k)), (N.mul_comm _ k). apply N.mod_add. discriminate. }
  assert (Y : (t1 + dc) / 2576980377600 = k + (b + dc) / 2576980377600).
  { rewrite Q. rewrite <- N.add_assoc, (N.mul_comm _ k), N.div_add_l by discriminate. reflexivity. }
  rewrite (jitter_near m (f + b) ((t1 + dc) mod 2576980377600) e He).
  - rewrite Y. destruct (Z.ltb_spec (Z.of_N (f + b) + e) 2576980377600) as [L|L].
    + rewrite (N.div_small (b + dc)) by lia. rewrite N.add_0_r, N.eqb_refl. reflexivity.
    + replace ((b + dc) / 2576980377600) with 1 by (apply N.div_unique with (b + dc - 2576980377600); lia).
      destruct (N.eqb_spec (k + 1) k); [lia|]. reflexivity.
  - lia.
  - rewrite X, N2Z.inj_mod. f_equal. lia.
Qed.

(** exact PCR values *)
Fixpoint expected (t0 t1 n1 : N) (l : list (N * N)) : list Z :=
  match l with
  | [] => []
  | (t2, n2) :: l' =>
    (if turns t2 =? turns t1 then if turns t1 =? turns t0 then 0%Z else Z.of_N ((n2 + n1 - 1) / n1) else (-1)%Z) :: expected t1 t2 n2 l'
  end.
Definition wraps (t : N) (l : list (N * N)) : bool := existsb (fun x => negb (turns (fst x) =? turns t)) l.
Lemma delta_steady m t d : d <= 27000000 -> pcr_delta m (t mod PERIOD) ((t + d) mod PERIOD) = Ok (if turns (t + d) =? turns t then d else d - 1).
Proof.
  intros H. unfold turns. change PERIOD with 2576980377600. pose proof (N.mod_lt t 2576980377600 ltac:(discriminate)) as M. pose proof (N.div_mod' t 2576980377600) as Q.
  set (b := t mod 2576980377600) in *. set (k := t / 2576980377600) in *.
  assert (X : (t + d) mod 2576980377600 = (b + d) mod 2576980377600).
  { rewrite Q. rewrite <- N.add_assoc, (N.add_comm (2576980377600 * k)), (N.mul_comm _ k). apply N.mod_add. discriminate. }
  assert (Y : (t + d) / 2576980377600 = k + (b + d) / 2576980377600).
  { rewrite Q. rewrite <- N.add_assoc, (N.mul_comm _ k), N.div_add_l by discriminate. reflexivity. }
  rewrite X, Y. destruct (N.ltb_spec (b + d) 2576980377600) as [L|L].
  - rewrite N.mod_small, N.div_small, N.add_0_r, N.eqb_refl by lia. unfold pcr_delta. destruct (N.leb_spec b (b + d)); [|lia]. f_equal. lia.
  - replace ((b + d) / 2576980377600) with 1 by (apply N.div_unique with (b + d - 2576980377600); lia).
    replace ((b + d) mod 2576980377600) with (b + d - 2576980377600) by (apply N.mod_unique with 1; lia).
    destruct (N.eqb_spec (k + 1) k); [lia|]. unfold pcr_delta. destruct (N.leb_spec b (b + d - 2576980377600)); [lia|].
    change PCR_MAX with 2576980377599. unfold U64. rewrite addw_ok by lia. cbn [bind]. rewrite subw_ok by lia. f_equal. lia.
Qed.
Lemma turns_small t d : d <= 27000000 -> turns (t + d) <> turns t -> t mod PERIOD + d < PERIOD -> False.
Proof.
  intros H T L. apply T. unfold turns. change PERIOD with 2576980377600 in *. clear T. dlia.
Qed.
Lemma wrap_then t d d' : d <= 27000000 -> d' <= 27000000 -> turns (t + d) <> turns t -> turns (t + d + d') = turns (t + d).
Proof. intros H H' T. unfold turns in *. change PERIOD with 2576980377600 in *. dlia. Qed.
Lemma rate_cross rt rb d n d' n' : 0 < rb -> d * rb = n * rt -> d' * rb = n' * rt -> d * n' = d' * n.
Proof.
  intros R A B. apply (N.mul_cancel_r _ _ rb); [lia|]. replace (d * n' * rb) with (n' * (d * rb)) by lia. replace (d' * n * rb) with (n * (d' * rb)) by lia. rewrite A, B. lia.
Qed.
Lemma short_delta d1 n1 d2 n2 : d1 * n2 = d2 * n1 -> 0 < d1 -> 0 < n1 -> (n2 + n1 - 1) / n1 <= d2 /\ (d1 - 1) * n2 / n1 = d2 - (n2 + n1 - 1) / n1.
Proof.
  intros X D H. pose proof (N.div_mod' (n2 + n1 - 1) n1) as Q. pose proof (N.mod_lt (n2 + n1 - 1) n1 ltac:(lia)) as Q'.
  set (q := (n2 + n1 - 1) / n1) in *. set (r := (n2 + n1 - 1) mod n1) in *. clearbody q r.
  assert (A : q <= d2).
  { apply N.lt_succ_r. apply (N.mul_lt_mono_pos_r n1); [assumption|]. rewrite N.mul_succ_l, <- X. assert (n2 <= d1 * n2) by (rewrite <- (N.mul_1_l n2) at 1; apply N.mul_le_mono_r; lia). lia. }
  split; [assumption|]. symmetry. apply N.div_unique with (q * n1 - n2); [lia|].
  rewrite N.mul_sub_distr_r, X, N.mul_sub_distr_l, (N.mul_comm n1 d2), (N.mul_comm q n1).
  assert (n1 * q <= d2 * n1) by (rewrite (N.mul_comm n1 q); apply N.mul_le_mono_r; assumption). lia.
Qed.
Lemma measured m rt rb : 0 < rb -> forall l t0 d1 n1, d1 * rb = n1 * rt -> d1 <= 27000000 -> 0 < n1 < 2 ^ 32 -> steady rt rb (t0 + d1) l ->
  measure m (t0 mod PERIOD) ((t0 + d1) mod PERIOD) n1 (wrapped l) =
    if (match m with Debug => true | Release => false end) && wraps (t0 + d1) l then Panic else Ok (map ns (expected t0 (t0 + d1) n1 l)).
Proof.
  intros R. induction l as [|[t2 n2] l IH]; intros t0 d1 n1 E1 L1 B1 S.
  - cbn [wraps existsb]. rewrite andb_false_r. reflexivity.
  - inversion S as [|? d2 ? ? E2 L2 B2 S']; subst. cbn [wrapped map fst snd]. change (map _ l) with (wrapped l). rewrite measure_cons.
    pose proof (rate_cross rt rb d1 n1 d2 n2 R E1 E2) as X. cbn [expected wraps existsb fst map].
    set (w := if turns (t0 + d1) =? turns t0 then 0 else (n2 + n1 - 1) / n1).
    assert (W : exists da, pcr_delta m (t0 mod PERIOD) ((t0 + d1) mod PERIOD) = Ok da /\ da <= 27000000 /\ (Z.of_N (da * n2 / n1) + Z.of_N w = Z.of_N d2)%Z /\ w <= 27000000).
    { rewrite delta_steady by assumption. eexists. split; [reflexivity|]. subst w. destruct (N.eqb_spec (turns (t0 + d1)) (turns t0)) as [T|T].
      - split; [assumption|]. rewrite X, N.div_mul by lia. lia.
      - assert (D : 0 < d1) by (destruct (N.eq_dec d1 0) as [->|]; [rewrite N.add_0_r in T; congruence|lia]).
        split; [lia|]. destruct (short_delta d1 n1 d2 n2 X D ltac:(lia)) as [F1 F2]. rewrite F2. lia. }
    destruct W as (da & D1 & D2 & D3 & D4).
    rewrite (step_value m t0 (t0 + d1) n1 d2 n2 da (Z.of_N w) D1 D2 ltac:(lia) ltac:(lia) L2 D3 ltac:(lia)).
    rewrite (IH (t0 + d1) d2 n2 E2 L2 B2 S').
    destruct (N.eqb_spec (turns (t0 + d1 + d2)) (turns (t0 + d1))) as [T|T].
    + cbn [bind negb orb]. unfold wraps. rewrite T. destruct (_ && _); cbn [bind]; [reflexivity|]. do 3 f_equal. subst w. destruct (turns (t0 + d1) =? turns t0); reflexivity.
    + destruct (N.eqb_spec (turns (t0 + d1)) (turns t0)) as [T0|T0]; [|exfalso; exact (T (wrap_then t0 d1 d2 L1 L2 T0))].
      subst w. cbn [Z.of_N Z.ltb Z.compare]. destruct m; cbn [negb orb andb bind]; [reflexivity|]. reflexivity.
Qed.

(** PCR values rounded down *)
Definition at_byte (rt rb s x : N) : N := (s + x * rt) / rb.
Definition near (w : N) := fix near (n1 : N) (l : list (N * N)) (es : list Z) : Prop :=
  match l, es with
  | [], [] => True
  | (_, n2) :: l', e :: es' => (- Z.of_N (n1 + n2 + w * n1) < e * Z.of_N n1 < Z.of_N (2 * n1 + n2 + w * n2))%Z /\ near n2 l' es'
  | _, _ => False
  end.
Lemma at_byte_step rt rb s x n : 0 < rb -> let d := at_byte rt rb s (x + n) - at_byte rt rb s x in
  at_byte rt rb s (x + n) = at_byte rt rb s x + d /\ rb * d < n * rt + rb /\ n * rt < rb * d + rb.
Proof.
  intros R d. subst d. unfold at_byte. rewrite N.mul_add_distr_r, N.add_assoc. set (y := s + x * rt). set (z := n * rt).
  pose proof (N.div_mod' y rb) as A. pose proof (N.mod_lt y rb ltac:(lia)) as A'. pose proof (N.div_mod' (y + z) rb) as B. pose proof (N.mod_lt (y + z) rb ltac:(lia)) as B'.
  assert (L : y / rb <= (y + z) / rb) by (apply N.div_le_mono; lia).
  set (p := y / rb) in *. set (q := (y + z) / rb) in *. clearbody p q y z.
  assert (E : exists d, q = p + d) by (exists (q - p); lia). destruct E as [d ->]. replace (p + d - p) with d by lia. rewrite N.mul_add_distr_l in B.
  set (rp := rb * p) in *. set (rd := rb * d) in *. clearbody rp rd. lia.
Qed.
Lemma cross_bound rt rb d1 n1 d2 n2 : 0 < rb -> 0 < n1 -> 0 < n2 -> rb * d2 < n2 * rt + rb -> n1 * rt < rb * d1 + rb -> d2 * n1 < d1 * n2 + n1 + n2.
Proof.
  intros R H1 H2 A B. apply (N.mul_lt_mono_pos_l rb); [assumption|].
  assert (A' : rb * d2 * n1 < (n2 * rt + rb) * n1) by (apply N.mul_lt_mono_pos_r; assumption).
  assert (B' : n1 * rt * n2 < (rb * d1 + rb) * n2) by (apply N.mul_lt_mono_pos_r; assumption).
  replace ((n2 * rt + rb) * n1) with (n1 * rt * n2 + rb * n1) in A' by lia. replace (rb * (d2 * n1)) with (rb * d2 * n1) by lia.
  replace (rb * (d1 * n2 + n1 + n2)) with ((rb * d1 + rb) * n2 + rb * n1) by lia. lia.
Qed.
Lemma step_error rt rb d1 n1 d2 n2 (w : bool) : 0 < rb -> 0 < n1 -> 0 < n2 -> rb <= rt -> d2 <= 27000000 -> (w = true -> 0 < d1) ->
  rb * d1 < n1 * rt + rb -> n1 * rt < rb * d1 + rb -> rb * d2 < n2 * rt + rb -> n2 * rt < rb * d2 + rb ->
  let da := if w then d1 - 1 else d1 in
  let e := (Z.of_N d2 - Z.of_N (da * n2 / n1))%Z in
  (-27000000 <= e <= 27000000)%Z /\ (- Z.of_N (n1 + n2) < e * Z.of_N n1 < Z.of_N (2 * n1 + n2 + (if w then n2 else 0)))%Z.
Proof.
  intros R H1 H2 RT L W A1 A2 B1 B2 da e.
  pose proof (cross_bound rt rb d1 n1 d2 n2 R H1 H2 B1 A2) as X. pose proof (cross_bound rt rb d2 n2 d1 n1 R H2 H1 A1 B2) as Y.
  pose proof (N.div_mod' (da * n2) n1) as Q. pose proof (N.mod_lt (da * n2) n1 ltac:(lia)) as Q'.
  assert (D : da * n2 = d1 * n2 - (if w then n2 else 0) /\ (w = true -> n2 <= d1 * n2)).
  { subst da. destruct w; [|split; [lia|discriminate]]. specialize (W eq_refl). split; [rewrite N.mul_sub_distr_r; lia|]. intros _. rewrite <- (N.mul_1_l n2) at 1. apply N.mul_le_mono_r. lia. }
  destruct D as [D D']. assert (N2 : n2 <= 27000000).
  { assert (n2 * rb < (d2 + 1) * rb) by (assert (n2 * rb <= n2 * rt) by (apply N.mul_le_mono_l; assumption); lia).
    assert (n2 < d2 + 1) by (apply (N.mul_lt_mono_pos_r rb); assumption). lia. }
  assert (E : (e * Z.of_N n1 = Z.of_N (d2 * n1) - Z.of_N (n1 * (da * n2 / n1)))%Z) by (subst e; rewrite Z.mul_sub_distr_r, !N2Z.inj_mul; lia).
  set (f := da * n2 / n1) in *. set (g := n1 * f) in *. set (u := d2 * n1) in *. set (v := d1 * n2) in *. set (r := (da * n2) mod n1) in *.
  assert (K : (- Z.of_N (n1 + n2) < e * Z.of_N n1 < Z.of_N (2 * n1 + n2 + (if w then n2 else 0)))%Z).
  { rewrite E. rewrite D in Q. clearbody g u v r. destruct w; [specialize (D' eq_refl)|]; lia. }
  split; [|assumption]. split; [|subst e; lia].
  destruct (Z.le_gt_cases (-27000000) e) as [|C]; [assumption|exfalso].
  assert (e * Z.of_N n1 <= -27000001 * Z.of_N n1)%Z by (apply Z.mul_le_mono_nonneg_r; lia). lia.
Qed.
Definition one_turn (t0 : N) (l : list (N * N)) : bool := forallb (fun x => turns (fst x) =? turns t0) l.
Lemma paced_step m rt rb s x n1 n2 : 0 < rb -> rb <= rt -> 0 < n1 -> 0 < n2 < 2 ^ 32 ->
  at_byte rt rb s (x + n1) - at_byte rt rb s x <= 27000000 -> at_byte rt rb s (x + n1 + n2) - at_byte rt rb s (x + n1) <= 27000000 ->
  let t0 := at_byte rt rb s x in let t1 := at_byte rt rb s (x + n1) in let t2 := at_byte rt rb s (x + n1 + n2) in
  exists e, (- Z.of_N (n1 + n2) < e * Z.of_N n1 < Z.of_N (2 * n1 + n2 + (if (turns t1 =? turns t0)%N then 0 else n2)))%Z /\
    step m (t0 mod PERIOD) (t1 mod PERIOD) n1 (t2 mod PERIOD) n2 =
      if turns t2 =? turns t1 then Ok (ns e)
      else if (0 <? e)%Z then Ok (ns (e - 1)) else match m with Debug => Panic | Release => Ok (ns (e - 1)) end.
Proof.
  intros R RT H1 H2 L1 L2 t0 t1 t2. destruct (at_byte_step rt rb s x n1 R) as (E1 & A1 & A2). destruct (at_byte_step rt rb s (x + n1) n2 R) as (E2 & B1 & B2).
  fold t0 in E1, A1, A2, L1. fold t1 in E1, A1, A2, B1, B2, E2, L1, L2. fold t2 in E2, B1, B2, L2.
  set (d1 := t1 - t0) in *. set (d2 := t2 - t1) in *. clearbody d1 d2. clearbody t0 t1 t2. subst t1 t2.
  pose proof (delta_steady m t0 d1 L1) as D. set (w := negb (turns (t0 + d1) =? turns t0)).
  destruct (step_error rt rb d1 n1 d2 n2 w R H1 ltac:(lia) RT L2) as [S1 S2]; try assumption.
  { subst w. intros W. destruct (N.eq_dec d1 0) as [->|]; [|lia]. rewrite N.add_0_r, N.eqb_refl in W. discriminate. }
  exists (Z.of_N d2 - Z.of_N ((if w then d1 - 1 else d1) * n2 / n1))%Z. split; [|apply step_value with (da := if w then d1 - 1 else d1)].
  - subst w. destruct (turns (t0 + d1) =? turns t0); exact S2.
  - rewrite D. subst w. destruct (turns (t0 + d1) =? turns t0); reflexivity.
  - destruct w; lia.
  - assumption.
  - lia.
  - assumption.
  - lia.
  - exact S1.
Qed.
Lemma rounded m rt rb s : 0 < rb -> rb <= rt -> forall l x n1, 0 < n1 -> at_byte rt rb s (x + n1) - at_byte rt rb s x <= 27000000 -> paced rt rb s (x + n1) l ->
  (one_turn (at_byte rt rb s x) ((at_byte rt rb s (x + n1), n1) :: l) = true ->
   exists es, measure m (at_byte rt rb s x mod PERIOD) (at_byte rt rb s (x + n1) mod PERIOD) n1 (wrapped l) = Ok (map ns es) /\ near 0 n1 l es) /\
  exists es, measure Release (at_byte rt rb s x mod PERIOD) (at_byte rt rb s (x + n1) mod PERIOD) n1 (wrapped l) = Ok (map ns es) /\ near 1 n1 l es.
Proof.
  intros R RT. induction l as [|[t2 n2] l IH]; intros x n1 H1 L1 P.
  - split; [intros _|]; exists []; split; [reflexivity|exact I|reflexivity|exact I].
  - inversion P as [|? ? ? H2 L2 P']; subst. fold (at_byte rt rb s (x + n1 + n2)) in *. fold (at_byte rt rb s (x + n1)) in *.
    cbn [wrapped map fst snd]. change (map _ l) with (wrapped l).
    destruct (IH (x + n1) n2 ltac:(lia) L2 P') as [I1 I2]. split.
    + intros T. cbn [one_turn forallb fst] in T. apply andb_prop in T as [T1 T]. apply andb_prop in T as [T2 T]. apply N.eqb_eq in T1. apply N.eqb_eq in T2.
      destruct I1 as (es & I1 & I1').
      { cbn [one_turn forallb fst]. rewrite T1, T2, N.eqb_refl. exact T. }
      destruct (paced_step m rt rb s x n1 n2 R RT H1 H2 L1 L2) as (e & E1 & E2). rewrite measure_cons, E2, T2, T1, N.eqb_refl. cbn [bind]. rewrite I1. cbn [bind].
      exists (e :: es). split; [reflexivity|]. cbn [near]. split; [|assumption]. rewrite T1, N.eqb_refl in E1. lia.
    + destruct I2 as (es & I2 & I2'). destruct (paced_step Release rt rb s x n1 n2 R RT H1 H2 L1 L2) as (e & E1 & E2).
      set (e' := if turns (at_byte rt rb s (x + n1 + n2)) =? turns (at_byte rt rb s (x + n1)) then e else (e - 1)%Z).
      exists (e' :: es). rewrite measure_cons, E2. cbn [near]. split.
      * subst e'. destruct (turns (at_byte rt rb s (x + n1 + n2)) =? _); [|destruct (0 <? e)%Z]; cbn [bind]; rewrite I2; reflexivity.
      * split; [|assumption]. subst e'. clear E2. destruct (turns (at_byte rt rb s (x + n1)) =? turns (at_byte rt rb s x)); destruct (turns (at_byte rt rb s (x + n1 + n2)) =? _); rewrite ?Z.mul_sub_distr_r; lia.
Qed.
Lemma expected_zero k : forall l a t1 n1, turns a = k -> turns t1 = k -> (forall x, In x l -> turns (fst x) = k) ->
  map ns (expected a t1 n1 l) = map (fun _ => 0%Z) l.
Proof.
  induction l as [|[t2 n2] l IH]; intros a t1 n1 A T1 Tl; [reflexivity|]. assert (T2 : turns t2 = k) by (apply (Tl (t2, n2)); left; reflexivity).
  cbn [expected map]. rewrite T2, T1, A, N.eqb_refl. f_equal. apply IH; [exact T1|exact T2|]. intros x I. apply Tl. right. exact I.
Qed.
Lemma steady_zero m rt rb t0 t1 n1 l : 0 < rb -> steady rt rb t0 ((t1, n1) :: l) ->
  (forall x, In x ((t1, n1) :: l) -> turns (fst x) = turns t0) ->
  measure m (t0 mod PERIOD) (t1 mod PERIOD) n1 (wrapped l) = Ok (map (fun _ => 0%Z) l).
Proof.
  intros R S T. inversion S as [|? d ? ? E L B S']; subst. rewrite (measured m rt rb) by assumption.
  assert (T1 : turns (t0 + d) = turns t0) by (apply (T (t0 + d, n1)); left; reflexivity).
  assert (W : wraps (t0 + d) l = false).
  { unfold wraps. destruct (existsb _ l) eqn:X; [|reflexivity]. apply existsb_exists in X as (x & I & X). rewrite T1, (T x (or_intror I)), N.eqb_refl in X. discriminate. }
  rewrite W, andb_false_r. f_equal. apply (expected_zero (turns t0)); [reflexivity|exact T1|]. intros x I. apply T. right. exact I.
Qed.
Lemma rounded_all m rt rb s x n1 l : 0 < rb <= rt -> paced rt rb s x ((at_byte rt rb s (x + n1), n1) :: l) ->
  ((forall o, In o ((at_byte rt rb s (x + n1), n1) :: l) -> turns (fst o) = turns (at_byte rt rb s x)) ->
   exists es, measure m (at_byte rt rb s x mod PERIOD) (at_byte rt rb s (x + n1) mod PERIOD) n1 (wrapped l) = Ok (map ns es) /\ near 0 n1 l es) /\
  exists es, measure Release (at_byte rt rb s x mod PERIOD) (at_byte rt rb s (x + n1) mod PERIOD) n1 (wrapped l) = Ok (map ns es) /\ near 1 n1 l es.
Proof.
  intros [R RT] P. inversion P as [|? ? ? H1 L1 P' X1]; subst. destruct (rounded m rt rb s R RT l x n1 ltac:(lia) L1 P') as [A B]. split; [|exact B].
  intros T. apply A. unfold one_turn. apply forallb_forall. intros o I. apply N.eqb_eq. apply T, I.
Qed.

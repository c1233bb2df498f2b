(** Proofs about PCR arithmetic (M_ts). *)
From Verif Require Import Prelude Layout Facts S_ts M_ts M_pes P_ts.

(** ** PCR arithmetic *)
Lemma pcr_delta_spec m a b : a <= PCR_MAX -> b <= PCR_MAX ->
  exists d, pcr_delta m a b = Ok d /\ d <= PCR_MAX /\
    (a <= b -> d = b - a) /\ (b < a -> d + 1 = b + PCR_NONE - a).
Proof.
  change PCR_MAX with 2576980377599. change PCR_NONE with 2576980377600. intros Ha Hb.
  unfold pcr_delta. change PCR_MAX with 2576980377599. unfold U64.
  destruct (N.leb_spec a b) as [H|H].
  - exists (b - a). repeat split; try lia.
  - rewrite addw_ok by lia. cbn [bind]. rewrite subw_ok by lia. eexists. split; [reflexivity|]. lia.
Qed.

(** outside the clock range: exact abort condition *)
Lemma pcr_delta_debug a b : a < U64 -> b < U64 ->
  (pcr_delta Debug a b = Panic <-> b < a /\ (U64 <= b + PCR_MAX \/ b + PCR_MAX < a)).
Proof.
  intros Ha Hb. unfold pcr_delta, addw, subw.
  destruct (N.leb_spec a b); [split; [discriminate|lia]|].
  destruct (N.ltb_spec (b + PCR_MAX) U64); cbn [bind].
  - destruct (N.leb_spec a (b + PCR_MAX)); split; try discriminate; try reflexivity; lia.
  - split; try reflexivity; lia.
Qed.

Lemma pcr_to_stc_debug last nb delta lb :
  pcr_to_stc Debug last nb delta lb =
    if (delta * nb <? U64) && negb (lb =? 0) && (delta * nb / lb + last <? U64)
    then Ok (delta * nb / lb + last) else Panic.
Proof.
  unfold pcr_to_stc, mulw, divw, addw.
  destruct (delta * nb <? U64); cbn [bind andb]; [|reflexivity].
  destruct (lb =? 0); cbn [bind andb negb]; [reflexivity|].
  destruct (delta * nb / lb + last <? U64); reflexivity.
Qed.

Lemma pcr_to_stc_release last nb delta lb :
  pcr_to_stc Release last nb delta lb =
    if lb =? 0 then Panic else Ok ((delta * nb mod U64 / lb + last) mod U64).
Proof.
  unfold pcr_to_stc, mulw, divw, addw.
  assert (E : (if delta * nb <? U64 then Ok (delta * nb) else Ok (delta * nb mod U64))
              = Ok (delta * nb mod U64)).
  { destruct (N.ltb_spec (delta * nb) U64); [|reflexivity].
    rewrite N.mod_small by assumption. reflexivity. }
  rewrite E. cbn [bind]. destruct (lb =? 0); cbn [bind]; [reflexivity|].
  destruct (N.ltb_spec (delta * nb mod U64 / lb + last) U64); [|reflexivity].
  rewrite (N.mod_small (_ + last)) by assumption. reflexivity.
Qed.

Lemma pcr_to_stc_cbr m last nb delta lb d :
  lb <> 0 -> delta * nb < U64 -> d + last < U64 ->
  (** constant rate: the next interval has the same ticks per byte *)
  d * lb = delta * nb ->
  pcr_to_stc m last nb delta lb = Ok (last + d).
Proof.
  intros Hl Hm Ha Hd. unfold pcr_to_stc. rewrite mulw_ok by assumption. cbn [bind].
  unfold divw. destruct (N.eqb_spec lb 0); [contradiction|]. cbn [bind].
  rewrite <- Hd. rewrite N.div_mul by assumption. rewrite addw_ok by assumption. f_equal. lia.
Qed.

Lemma i64_op_ok m z : (-9223372036854775808 <= z < 9223372036854775808)%Z -> i64_op m z = Ok z.
Proof.
  intros H. unfold i64_op.
  destruct (Z.leb_spec (-9223372036854775808) z), (Z.ltb_spec z 9223372036854775808); try lia.
  reflexivity.
Qed.

(** [near p s d]: d ticks of signed difference, in nanoseconds truncated *)
Definition ticks_to_ns (d : Z) : Z := Z.quot (d * 1000) 27.

Lemma pcr_jitter_core m pcr stc r :
  r < 2576980377600 ->
  (if pcr <? stc then x <- addw U64 m pcr PCR_MAX ;; subw U64 m x stc else Ok (pcr - stc)) = Ok r ->
  pcr_jitter_ns m pcr stc = Ok (ticks_to_ns
     (if (27000000 <? Z.of_N r)%Z then Z.of_N r - 2576980377599 else Z.of_N r)).
Proof.
  intros Hr E. unfold pcr_jitter_ns. rewrite E. cbn [bind].
  unfold i64_of_u64. destruct (N.ltb_spec r 9223372036854775808); [|lia].
  change (Z.of_N PCR_SYSTEM_CLOCK) with 27000000%Z. change (Z.of_N PCR_MAX) with 2576980377599%Z.
  change (Z.of_N PCR_CLOCK_US) with 27%Z.
  destruct (Z.ltb_spec 27000000 (Z.of_N r)).
  - rewrite i64_op_ok by lia. cbn [bind]. rewrite i64_op_ok by lia. reflexivity.
  - cbn [bind]. rewrite i64_op_ok by lia. reflexivity.
Qed.

Lemma pcr_jitter_spec m pcr stc : pcr <= PCR_MAX -> stc <= PCR_MAX ->
  exists d, pcr_jitter_ns m pcr stc = Ok (ticks_to_ns d) /\
    (let diff := (Z.of_N pcr - Z.of_N stc)%Z in
     (** pcr at most a second ahead: exact *)
     (0 <= diff <= 27000000 -> d = diff)%Z /\
     (** pcr behind, no wrap: exact *)
     (- (2576980377599 - 27000000) < diff < 0 -> d = diff)%Z /\
     (** pcr wrapped, at most about a second ahead: one tick short *)
     (diff <= - (2576980377599 - 27000000) -> d = diff + 2576980377600 - 1)%Z /\
     (** pcr numerically far ahead: read as behind across the wrap, one tick short *)
     (27000000 < diff -> d = diff - 2576980377600 + 1)%Z).
Proof.
  change PCR_MAX with 2576980377599. intros Hp Hs.
  destruct (N.ltb_spec pcr stc) as [H|H].
  - eexists. split.
    + apply (pcr_jitter_core m pcr stc (pcr + 2576980377599 - stc)); [lia|].
      apply N.ltb_lt in H as H'. rewrite H'. change PCR_MAX with 2576980377599. unfold U64.
      rewrite addw_ok by lia. cbn [bind]. rewrite subw_ok by lia. reflexivity.
    + destruct (Z.ltb_spec 27000000 (Z.of_N (pcr + 2576980377599 - stc))); cbn; lia.
  - eexists. split.
    + apply (pcr_jitter_core m pcr stc (pcr - stc)); [lia|].
      apply N.ltb_ge in H as H'. rewrite H'. reflexivity.
    + destruct (Z.ltb_spec 27000000 (Z.of_N (pcr - stc))); cbn; lia.
Qed.

Lemma pcr_to_us_spec pcr : pcr_to_us pcr * 27 <= pcr < (pcr_to_us pcr + 1) * 27.
Proof. unfold pcr_to_us, PCR_CLOCK_US. dlia. Qed.
Lemma pcr_to_ms_spec pcr : pcr_to_ms pcr * 27000 <= pcr < (pcr_to_ms pcr + 1) * 27000.
Proof. unfold pcr_to_ms. change PCR_CLOCK_MS with 27000. dlia. Qed.

Lemma pcr_bitrate_ok m delta nb : 27000 <= delta -> nb * 8 < U64 ->
  exists r, pcr_delta_bitrate m delta nb = Ok r /\
    r * (delta / 27000) <= 8 * nb < (r + 1) * (delta / 27000).
Proof.
  intros Hd Hn. unfold pcr_delta_bitrate. rewrite mulw_ok by assumption. cbn [bind].
  unfold pcr_to_ms. change PCR_CLOCK_MS with 27000. unfold divw.
  destruct (N.eqb_spec (delta / 27000) 0); [exfalso; dlia|].
  eexists. split; [reflexivity|]. generalize dependent (delta / 27000). intros q Hq.
  pose proof (N.div_mod (nb * 8) q Hq). pose proof (N.mod_lt (nb * 8) q Hq). nia.
Qed.

Lemma pcr_bitrate_panic delta nb :
  (pcr_delta_bitrate Debug delta nb = Panic <-> delta < 27000 \/ U64 <= nb * 8) /\
  (pcr_delta_bitrate Release delta nb = Panic <-> delta < 27000).
Proof.
  unfold pcr_delta_bitrate, mulw, divw, pcr_to_ms. change PCR_CLOCK_MS with 27000.
  destruct (N.ltb_spec (nb * 8) U64); cbn [bind]; destruct (N.eqb_spec (delta / 27000) 0) as [E|E];
  (split; split; intros HH; try discriminate; try reflexivity; try (right; assumption);
   try (left; dlia); try dlia; try (exfalso; dlia)).
Qed.


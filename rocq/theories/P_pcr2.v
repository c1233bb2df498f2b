(** Proofs: the jitter for every pair of 64-bit values. *)
From Verif Require Import Prelude M_ts.

Definition i64 (w : Z) : Prop := (-9223372036854775808 <= w < 9223372036854775808)%Z.
(** [w] is the 64-bit two's complement reading of [z] *)
Definition wraps (z w : Z) : Prop := i64 w /\ ((w - z) mod 18446744073709551616 = 0)%Z.
Lemma i64_wrap_spec z : wraps z (i64_wrap z).
Proof. unfold wraps, i64, i64_wrap. split; [Z.div_mod_to_equations; lia|]. Z.div_mod_to_equations. nia. Qed.
Lemma i64_u64_spec v : v < U64 -> wraps (Z.of_N v) (i64_of_u64 v).
Proof.
  unfold U64, wraps, i64, i64_of_u64. intros H. destruct (N.ltb_spec v 9223372036854775808); (split; [lia|]).
  - rewrite Z.sub_diag. reflexivity.
  - replace (Z.of_N v - 18446744073709551616 - Z.of_N v)%Z with (-18446744073709551616)%Z by lia. reflexivity.
Qed.
Lemma wraps_trans a b c : ((a - b) mod 18446744073709551616 = 0)%Z -> wraps a c -> wraps b c.
Proof.
  intros H [H1 H2]. split; [exact H1|]. replace (c - b)%Z with ((c - a) + (a - b))%Z by lia. rewrite Zplus_mod, H, H2. reflexivity.
Qed.
Definition ahead (pcr stc : N) : Z := if pcr <? stc then (Z.of_N pcr + 2576980377599 - Z.of_N stc)%Z else (Z.of_N pcr - Z.of_N stc)%Z.
Definition tick (s : Z) : Z := if (27000000 <? s)%Z then (s - 2576980377599)%Z else s.
Definition too_large (pcr stc : N) : bool := (pcr <? stc) && ((18446744073709551616 <=? pcr + 2576980377599) || (pcr + 2576980377599 <? stc)).

Lemma tick_ok m s : i64 s -> (if (Z.of_N PCR_SYSTEM_CLOCK <? s)%Z then i64_op m (s - Z.of_N PCR_MAX)%Z else Ok s) = Ok (tick s).
Proof.
  unfold i64, tick. change (Z.of_N PCR_SYSTEM_CLOCK) with 27000000%Z. change (Z.of_N PCR_MAX) with 2576980377599%Z. intros H.
  destruct (Z.ltb_spec 27000000 s); [|reflexivity]. unfold i64_op.
  rewrite (proj2 (Z.leb_le _ _)), (proj2 (Z.ltb_lt _ _)) by lia. reflexivity.
Qed.
Lemma rest m r : r < U64 -> exists s, wraps (Z.of_N r) s /\
  (result <- (if (Z.of_N PCR_SYSTEM_CLOCK <? i64_of_u64 r)%Z then i64_op m (i64_of_u64 r - Z.of_N PCR_MAX)%Z else Ok (i64_of_u64 r)) ;;
   x <- i64_op m (result * 1000)%Z ;; Ok (Z.quot x (Z.of_N PCR_CLOCK_US))) =
  (x <- i64_op m (tick s * 1000)%Z ;; Ok (Z.quot x 27)).
Proof.
  intros H. exists (i64_of_u64 r). pose proof (i64_u64_spec r H) as W. split; [exact W|]. rewrite tick_ok by apply W. reflexivity.
Qed.
Lemma first_debug pcr stc : pcr < U64 -> stc < U64 ->
  (if pcr <? stc then x <- addw U64 Debug pcr PCR_MAX ;; subw U64 Debug x stc else Ok (pcr - stc)) =
  if too_large pcr stc then Panic else Ok (Z.to_N (ahead pcr stc)).
Proof.
  unfold too_large, ahead, addw, subw, U64. change PCR_MAX with 2576980377599. intros H1 H2.
  destruct (N.ltb_spec pcr stc) as [H|H]; cbn [andb]; [|f_equal; lia].
  destruct (N.ltb_spec (pcr + 2576980377599) 18446744073709551616) as [K|K].
  - rewrite (proj2 (N.leb_gt _ _) K). cbn [orb bind]. destruct (N.leb_spec stc (pcr + 2576980377599)) as [J|J].
    + rewrite (proj2 (N.ltb_ge _ _) J). f_equal. lia.
    + rewrite (proj2 (N.ltb_lt _ _) J). reflexivity.
  - rewrite (proj2 (N.leb_le _ _) K). reflexivity.
Qed.
Lemma first_release pcr stc : pcr < U64 -> stc < U64 ->
  exists r, (if pcr <? stc then x <- addw U64 Release pcr PCR_MAX ;; subw U64 Release x stc else Ok (pcr - stc)) = Ok r /\ r < U64 /\
    ((Z.of_N r - ahead pcr stc) mod 18446744073709551616 = 0)%Z.
Proof.
  unfold ahead, addw, subw, U64. change PCR_MAX with 2576980377599. intros H1 H2.
  destruct (N.ltb_spec pcr stc) as [H|H].
  - destruct (N.ltb_spec (pcr + 2576980377599) 18446744073709551616) as [K|K]; cbn [bind].
    + destruct (N.leb_spec stc (pcr + 2576980377599)) as [J|J]; eexists; (split; [reflexivity|]); (split; [lia|]).
      * replace (_ - _)%Z with 0%Z by lia. reflexivity.
      * replace (_ - _)%Z with 18446744073709551616%Z by lia. reflexivity.
    + assert (E : (pcr + 2576980377599) mod 18446744073709551616 = pcr + 2576980377599 - 18446744073709551616).
      { symmetry. apply (N.mod_unique _ _ 1); lia. }
      rewrite E. destruct (N.leb_spec stc (pcr + 2576980377599 - 18446744073709551616)) as [J|J]; [lia|].
      eexists. split; [reflexivity|]. split; [lia|]. replace (_ - _)%Z with 0%Z by lia. reflexivity.
  - eexists. split; [reflexivity|]. split; [lia|]. replace (_ - _)%Z with 0%Z by lia. reflexivity.
Qed.
Lemma jitter_release pcr stc : pcr < U64 -> stc < U64 ->
  exists s w, wraps (ahead pcr stc) s /\ wraps (tick s * 1000) w /\ pcr_jitter_ns Release pcr stc = Ok (Z.quot w 27).
Proof.
  intros H1 H2. destruct (first_release pcr stc H1 H2) as (r & E & L & C). destruct (rest Release r L) as (s & W & R).
  unfold pcr_jitter_ns. rewrite E. cbn [bind]. cbv zeta. rewrite R. exists s.
  unfold i64_op. destruct (((-9223372036854775808 <=? tick s * 1000) && (tick s * 1000 <? 9223372036854775808))%Z) eqn:K.
  - rewrite andb_true_iff, Z.leb_le, Z.ltb_lt in K. exists (tick s * 1000)%Z. split; [exact (wraps_trans _ _ _ C W)|]. split; [|reflexivity].
    split; [exact K|]. rewrite Z.sub_diag. reflexivity.
  - exists (i64_wrap (tick s * 1000)). split; [exact (wraps_trans _ _ _ C W)|]. split; [apply i64_wrap_spec|reflexivity].
Qed.
Lemma jitter_debug pcr stc : pcr < U64 -> stc < U64 ->
  exists s, wraps (ahead pcr stc) s /\
    ((too_large pcr stc = true \/ ~ i64 (tick s * 1000)) -> pcr_jitter_ns Debug pcr stc = Panic) /\
    (too_large pcr stc = false -> i64 (tick s * 1000) -> pcr_jitter_ns Debug pcr stc = Ok (Z.quot (tick s * 1000) 27)).
Proof.
  intros H1 H2. unfold pcr_jitter_ns. rewrite (first_debug pcr stc H1 H2). destruct (too_large pcr stc) eqn:T.
  - exists (i64_wrap (ahead pcr stc)). split; [apply i64_wrap_spec|]. split; [reflexivity|discriminate].
  - cbn [bind]. cbv zeta. assert (A : (0 <= ahead pcr stc < 18446744073709551616)%Z).
    { unfold too_large, ahead, U64 in *. destruct (N.ltb_spec pcr stc) as [H|H]; cbn [andb] in T; [|lia].
      rewrite orb_false_iff, N.leb_gt, N.ltb_ge in T. lia. }
    destruct (rest Debug (Z.to_N (ahead pcr stc)) ltac:(unfold U64; lia)) as (s & W & R). rewrite R. rewrite Z2N.id in W by lia.
    exists s. split; [exact W|]. unfold i64_op, i64. split.
    + intros [K|K]; [discriminate|]. destruct (((-9223372036854775808 <=? tick s * 1000) && (tick s * 1000 <? 9223372036854775808))%Z) eqn:G; [|reflexivity].
      rewrite andb_true_iff, Z.leb_le, Z.ltb_lt in G. tauto.
    + intros _ K. rewrite (proj2 (Z.leb_le _ _)), (proj2 (Z.ltb_lt _ _)) by lia. reflexivity.
Qed.

(** Combinations of P_crc lemmas into property shape. *)
From Verif Require Import Prelude Layout Facts S_crc M_crc P_crc.

Lemma crc_bit_serial l : bytes l -> crc32b l = Ok (crc_spec l) /\ crc_spec l < 2 ^ 32.
Proof. intros H. split; [apply crc32b_spec; exact H|apply crc_spec_lt]. Qed.

Lemma be_unpack l : bytes l -> N_of_bits (unpack l) = be l.
Proof.
  induction l as [|b l IH] using rev_ind; intros H; [reflexivity|].
  apply bytes_app in H. destruct H as [Hl Hb]. apply bytes_cons in Hb. destruct Hb as [Hb _].
  rewrite unpack_app, N_of_bits_app, be_app, IH by assumption.
  change (unpack [b]) with (bits_of 8 b ++ []). rewrite app_nil_r, bits_of_length, bits_of_small by assumption.
  change (be [b]) with (256 * 0 + b). change (2 ^ N.of_nat 8) with 256. change (256 ^ N.of_nat (length [b])) with 256. lia.
Qed.

Lemma crc_division l : bytes l -> exists r, crc32b l = Ok r /\
  poly_rem (N.lxor (N.shiftl (be l) 32) (N.shiftl 0xFFFFFFFF (8 * N.of_nat (length l)))) r.
Proof.
  intros H. exists (crc_spec l). split; [apply crc32b_spec; exact H|].
  pose proof (crc_poly_bits (unpack l)) as P. unfold message_poly in P.
  rewrite be_unpack, unpack_length in P by exact H.
  replace (8 * N.of_nat (length l)) with (N.of_nat (8 * length l)) by lia. exact P.
Qed.

Lemma clmul_lxor q1 : forall q2 a1 a2, length q1 = length q2 ->
  fold_left (fun (a : N) (b : bool) => N.lxor (2 * a) (if b then GEN else 0)) (xorl q1 q2) (N.lxor a1 a2) =
  N.lxor (fold_left (fun (a : N) (b : bool) => N.lxor (2 * a) (if b then GEN else 0)) q1 a1)
         (fold_left (fun (a : N) (b : bool) => N.lxor (2 * a) (if b then GEN else 0)) q2 a2).
Proof.
  induction q1 as [|x q1 IH]; intros [|y q2] a1 a2 H; try discriminate; [reflexivity|].
  unfold xorl. cbn [combine map fst snd]. fold (xorl q1 q2). cbn [fold_left].
  rewrite <- IH by (cbn in H; lia). f_equal. rewrite double_lxor.
  apply N.bits_inj. intros k.
  destruct x, y; cbn [xorb]; rewrite ?N.lxor_spec, ?N.bits_0;
    generalize (N.testbit (2 * a1) k) (N.testbit (2 * a2) k) (N.testbit GEN k); intros [] [] []; reflexivity.
Qed.

Lemma clmul_pad q n : clmul (zeros n ++ q) GEN = clmul q GEN.
Proof.
  unfold clmul. rewrite fold_left_app. f_equal. induction n as [|n IH]; [reflexivity|]. cbn [zeros repeat fold_left]. exact IH.
Qed.

(** a product with the generator below 2^32 is zero *)
Lemma clmul_high q : clmul q GEN = 0 \/ 2 ^ 32 <= clmul q GEN.
Proof.
  assert (G : forall q, clmul q GEN = 0 \/ exists k, 32 <= k /\ N.testbit (clmul q GEN) k = true /\ forall j, k < j -> N.testbit (clmul q GEN) j = false).
  { clear q. induction q as [|b q IH] using rev_ind; [left; reflexivity|]. rewrite clmul_snoc.
    destruct IH as [E|(k & Hk & Ht & Hh)].
    - rewrite E. destruct b; [right|left; reflexivity]. exists 32. split; [lia|]. split; [reflexivity|].
      intros j Hj. apply (testbit_small GEN (2 ^ 33)); [reflexivity|]. apply N.leb_le. apply N.pow_le_mono_r; lia.
    - right. exists (k + 1). split; [lia|].
      assert (T : forall j, 32 < j -> N.testbit (N.lxor (2 * clmul q GEN) (if b then GEN else 0)) j = N.testbit (clmul q GEN) (j - 1)).
      { intros j Hj. rewrite N.lxor_spec.
        replace (2 * clmul q GEN) with (N.shiftl (clmul q GEN) 1) by (rewrite N.shiftl_mul_pow2; lia).
        rewrite N.shiftl_spec_high' by lia.
        replace (N.testbit (if b then GEN else 0) j) with false; [apply xorb_false_r|].
        destruct b; [|symmetry; apply N.bits_0]. symmetry. apply (testbit_small GEN (2 ^ 33)); [reflexivity|].
        apply N.leb_le. apply N.pow_le_mono_r; lia. }
      split.
      + rewrite T by lia. replace (k + 1 - 1) with k by lia. exact Ht.
      + intros j Hj. rewrite T by lia. apply Hh. lia. }
  destruct (G q) as [E|(k & Hk & Ht & _)]; [left; exact E|right].
  apply N.nlt_ge. intros L. rewrite (testbit_small _ _ k L) in Ht; [discriminate|].
  apply N.leb_le. apply N.pow_le_mono_r; lia.
Qed.

Lemma poly_rem_unique p r1 r2 : poly_rem p r1 -> poly_rem p r2 -> r1 = r2.
Proof.
  intros [L1 [q1 E1]] [L2 [q2 E2]].
  set (n1 := length q1) in *. set (n2 := length q2) in *.
  assert (Q : N.lxor r1 r2 = clmul (xorl (zeros n2 ++ q1) (zeros n1 ++ q2)) GEN).
  { pose proof (clmul_lxor (zeros n2 ++ q1) (zeros n1 ++ q2) 0 0) as C. rewrite N.lxor_0_r in C.
    unfold clmul at 1. rewrite C.
    2: { rewrite !app_length. unfold zeros. rewrite !repeat_length. lia. }
    change (fold_left _ ?q 0) with (clmul q GEN). rewrite !clmul_pad.
    assert (E : N.lxor (clmul q1 GEN) r1 = N.lxor (clmul q2 GEN) r2) by congruence.
    apply N.bits_inj. intros k. apply (f_equal (fun x => N.testbit x k)) in E.
    rewrite !N.lxor_spec in *. revert E.
    generalize (N.testbit r1 k) (N.testbit r2 k) (N.testbit (clmul q1 GEN) k) (N.testbit (clmul q2 GEN) k).
    intros [] [] [] []; cbn; congruence. }
  destruct (clmul_high (xorl (zeros n2 ++ q1) (zeros n1 ++ q2))) as [Z|Z]; rewrite <- Q in Z.
  - apply N.lxor_eq. exact Z.
  - exfalso. pose proof (lxor_lt 32 r1 r2 L1 L2). lia.
Qed.

Lemma residue l s : bytes l -> bytes s -> length s = 4%nat ->
  (crc32b (l ++ s) = Ok 0 <-> crc32b l = Ok (be s)).
Proof.
  intros Hl Hs Hn. rewrite (crc32b_spec l Hl).
  rewrite crc32b_spec by (apply bytes_app; auto).
  pose proof (crc_suffix l s Hl Hs Hn) as [A B].
  split; intros E.
  - f_equal. symmetry. apply A. congruence.
  - f_equal. apply B. congruence.
Qed.

Lemma append_zero l : bytes l -> exists c, crc32b l = Ok c /\ crc32b (l ++ to_be 4 c) = Ok 0.
Proof.
  intros H. exists (crc_spec l). split; [apply crc32b_spec; exact H|].
  apply residue; [exact H|apply to_be_bytes|apply to_be_length|].
  rewrite crc32b_spec by exact H. f_equal. rewrite be_to_be. symmetry. apply N.mod_small. apply crc_spec_lt.
Qed.

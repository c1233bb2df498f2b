(** Proofs about crc32b (M_crc) against S_crc. *)
From Verif Require Import Prelude Layout Facts S_crc M_crc.

Lemma crc_bit_lt r b : crc_bit r b < 2 ^ 32.
Proof.
  unfold crc_bit. cbv zeta. assert (H : (2 * r) mod 2 ^ 32 < 2 ^ 32) by (apply N.mod_lt; discriminate).
  destruct (xorb _ _); [|assumption]. apply lxor_lt; [assumption|reflexivity].
Qed.

Lemma crc_run_lt r bits : r < 2 ^ 32 -> crc_run r bits < 2 ^ 32.
Proof.
  intros H. unfold crc_run. revert r H. induction bits as [|b bits IH]; intros r H; [assumption|].
  cbn [fold_left]. apply IH. apply crc_bit_lt.
Qed.

Lemma crc_run_app r b1 b2 : crc_run r (b1 ++ b2) = crc_run (crc_run r b1) b2.
Proof. unfold crc_run. apply fold_left_app. Qed.

Lemma crc_run_cons r b bits : crc_run r (b :: bits) = crc_run (crc_bit r b) bits.
Proof. reflexivity. Qed.

(** ** linearity *)
Definition xorl (a b : list bool) : list bool := map (fun p => xorb (fst p) (snd p)) (combine a b).

Lemma double_lxor a b : 2 * N.lxor a b = N.lxor (2 * a) (2 * b).
Proof.
  replace (2 * N.lxor a b) with (N.shiftl (N.lxor a b) 1) by (rewrite N.shiftl_mul_pow2; lia).
  rewrite N.shiftl_lxor, !N.shiftl_mul_pow2. f_equal; lia.
Qed.

Lemma mod_lxor a b n : N.lxor a b mod 2 ^ n = N.lxor (a mod 2 ^ n) (b mod 2 ^ n).
Proof.
  apply N.bits_inj. intros k. rewrite N.lxor_spec, !(testbit_mod _ _ n) by reflexivity.
  rewrite N.lxor_spec. destruct (k <? n); [reflexivity|]. reflexivity.
Qed.

Lemma crc_bit_lxor r1 r2 b1 b2 :
  crc_bit (N.lxor r1 r2) (xorb b1 b2) = N.lxor (crc_bit r1 b1) (crc_bit r2 b2).
Proof.
  unfold crc_bit. cbv zeta. rewrite double_lxor, mod_lxor, N.lxor_spec.
  generalize ((2 * r1) mod 2 ^ 32) ((2 * r2) mod 2 ^ 32). intros x y.
  replace (xorb (xorb (N.testbit r1 31) (N.testbit r2 31)) (xorb b1 b2))
    with (xorb (xorb (N.testbit r1 31) b1) (xorb (N.testbit r2 31) b2)).
  2: { destruct (N.testbit r1 31), (N.testbit r2 31), b1, b2; reflexivity. }
  destruct (xorb (N.testbit r1 31) b1), (xorb (N.testbit r2 31) b2); cbn [xorb].
  - rewrite !N.lxor_assoc. f_equal. rewrite (N.lxor_comm POLY), N.lxor_assoc, N.lxor_nilpotent, N.lxor_0_r. reflexivity.
  - rewrite !N.lxor_assoc. f_equal. apply N.lxor_comm.
  - apply N.lxor_assoc.
  - reflexivity.
Qed.

Lemma crc_run_lxor b1 b2 r1 r2 : length b1 = length b2 ->
  crc_run (N.lxor r1 r2) (xorl b1 b2) = N.lxor (crc_run r1 b1) (crc_run r2 b2).
Proof.
  revert b2 r1 r2. induction b1 as [|x b1 IH]; intros [|y b2] r1 r2 H; try discriminate; [reflexivity|].
  unfold xorl. cbn [combine map fst snd]. fold (xorl b1 b2). rewrite !crc_run_cons.
  rewrite crc_bit_lxor. apply IH. cbn in H. lia.
Qed.

(** ** table *)
Definition zeros (n : nat) : list bool := repeat false n.

Lemma xorl_zeros_l l : xorl (zeros (length l)) l = l.
Proof. induction l as [|b l IH]; [reflexivity|]. unfold xorl, zeros in *. cbn [length repeat combine map fst snd]. rewrite xorb_false_l. f_equal. exact IH. Qed.
Lemma xorl_zeros_r l : xorl l (zeros (length l)) = l.
Proof. induction l as [|b l IH]; [reflexivity|]. unfold xorl, zeros in *. cbn [length repeat combine map fst snd]. rewrite xorb_false_r. f_equal. exact IH. Qed.

Lemma xorl_length a b : length a = length b -> length (xorl a b) = length a.
Proof. intros H. unfold xorl. rewrite map_length, combine_length. lia. Qed.

(** feeding the register its own contents clears it *)
Lemma crc_run_self w v : (w <= 32)%nat ->
  crc_run ((v * 2 ^ (32 - N.of_nat w)) mod 2 ^ 32) (bits_of w v) = 0.
Proof.
  induction w as [|w IH]; intros Hw.
  - cbn [bits_of crc_run fold_left]. change (32 - N.of_nat 0) with 32. apply N.mod_mul. discriminate.
  - cbn [bits_of]. rewrite crc_run_cons. rewrite <- IH by lia. f_equal.
    unfold crc_bit. cbv zeta.
    assert (T : N.testbit ((v * 2 ^ (32 - N.of_nat (S w))) mod 2 ^ 32) 31 = N.testbit v (N.of_nat w)).
    { rewrite N.mod_pow2_bits_low by lia. rewrite <- N.shiftl_mul_pow2, N.shiftl_spec_high' by lia.
      f_equal. lia. }
    rewrite T. rewrite xorb_nilpotent.
    rewrite N.mul_mod_idemp_r by discriminate. f_equal.
    replace (32 - N.of_nat w) with (N.succ (32 - N.of_nat (S w))) by lia.
    rewrite N.pow_succ_r'. lia.
Qed.

Lemma crc_run_self32 v : v < 2 ^ 32 -> crc_run v (bits_of 32 v) = 0.
Proof.
  intros H. pose proof (crc_run_self 32 v (le_n _)) as E. change (32 - N.of_nat 32) with 0 in E.
  rewrite N.pow_0_r, N.mul_1_r, N.mod_small in E by assumption. exact E.
Qed.

(** zero bits never clear a nonzero register *)
Lemma crc_zero_step r : r < 2 ^ 32 -> crc_bit r false = 0 -> r = 0.
Proof.
  intros Hr H. unfold crc_bit in H. cbv zeta in H. rewrite xorb_false_r in H.
  destruct (N.testbit r 31) eqn:T.
  - exfalso. assert (B : N.testbit (N.lxor ((2 * r) mod 2 ^ 32) POLY) 0 = true).
    { rewrite N.lxor_spec, N.mod_pow2_bits_low by lia. rewrite N.testbit_even_0. reflexivity. }
    rewrite H, N.bits_0 in B. discriminate.
  - assert (r < 2 ^ 31).
    { destruct (N.ltb_spec r (2 ^ 31)) as [|G]; [assumption|].
      exfalso. assert (E : r = 2 ^ 31 + (r - 2 ^ 31)) by lia.
      assert (T' : N.testbit r 31 = true).
      { rewrite N.testbit_true. change (2 ^ 32) with 4294967296 in Hr. change (2 ^ 31) with 2147483648 in *. dlia. }
      congruence. }
    rewrite N.mod_small in H by (change (2 ^ 32) with 4294967296; change (2 ^ 31) with 2147483648 in *; lia).
    lia.
Qed.

Lemma crc_run_zeros0 n : crc_run 0 (zeros n) = 0.
Proof. induction n as [|n IH]; [reflexivity|]. cbn [zeros repeat]. rewrite crc_run_cons. exact IH. Qed.

Lemma crc_run_zeros_inv n r : r < 2 ^ 32 -> crc_run r (zeros n) = 0 -> r = 0.
Proof.
  revert r. induction n as [|n IH]; intros r Hr H; [exact H|].
  cbn [zeros repeat] in H. rewrite crc_run_cons in H.
  apply crc_zero_step; [assumption|]. apply IH; [apply crc_bit_lt|exact H].
Qed.

(** ** one byte through the table *)
Lemma table_entry i : i < 256 -> get CRC32B_TABLE (N.to_nat i) = Ok (crc_run 0 (bits_of 8 i)).
Proof.
  assert (S : forall v, v < N.of_nat 256 ->
    match get CRC32B_TABLE (N.to_nat v) with Ok t => t =? crc_run 0 (bits_of 8 v) | _ => false end = true).
  { apply sweep. vm_compute. reflexivity. }
  intros H. specialize (S i H). destruct (get CRC32B_TABLE (N.to_nat i)); try discriminate.
  apply N.eqb_eq in S. congruence.
Qed.

(** shifting a register whose top byte is zero *)
Lemma crc_run_low w r : (w <= 32)%nat -> r < 2 ^ (32 - N.of_nat w) -> crc_run r (zeros w) = r * 2 ^ N.of_nat w.
Proof.
  revert r. induction w as [|w IH]; intros r Hw Hr.
  - cbn. lia.
  - cbn [zeros repeat]. rewrite crc_run_cons. unfold crc_bit. cbv zeta. rewrite xorb_false_r.
    assert (P : 2 ^ (32 - N.of_nat w) = 2 * 2 ^ (32 - N.of_nat (S w))).
    { replace (32 - N.of_nat w) with (N.succ (32 - N.of_nat (S w))) by lia. apply N.pow_succ_r'. }
    assert (Q : 2 ^ (32 - N.of_nat w) <= 2 ^ 32) by (apply N.pow_le_mono_r; lia).
    rewrite (testbit_small r _ 31 Hr).
    2: { apply N.leb_le. apply N.pow_le_mono_r; lia. }
    rewrite N.mod_small by lia. fold (zeros w). rewrite IH by lia.
    replace (N.of_nat (S w)) with (N.succ (N.of_nat w)) by lia. rewrite N.pow_succ_r'. lia.
Qed.

Lemma crc_byte r b : r < 2 ^ 32 -> b < 256 -> crc_step r b = Ok (crc_run r (bits_of 8 b)).
Proof.
  intros Hr Hb. unfold crc_step. cbv zeta. unfold cast, U8.
  set (t := N.shiftr r 24). set (lo := r mod 2 ^ 24).
  assert (Ht : t < 256) by (apply (shiftr_lt_pow r 24 8 (2 ^ 32)); [assumption|reflexivity]).
  rewrite (N.mod_small t) by assumption.
  assert (Hi : N.lxor t b < 256) by (apply (lxor_lt 8); assumption).
  rewrite table_entry by assumption. cbn [bind]. f_equal.
  (* r = (t << 24) xor lo *)
  assert (Er : r = N.lxor (N.shiftl t 24) lo).
  { subst t lo. apply N.bits_inj. intros k. rewrite N.lxor_spec.
    rewrite (testbit_mod _ _ 24) by reflexivity. rewrite testbit_shiftl.
    destruct (N.ltb_spec k 24).
    - rewrite xorb_false_l. reflexivity.
    - rewrite N.shiftr_spec'. replace (k - 24 + 24) with k by lia. rewrite xorb_false_r. reflexivity. }
  assert (Hlo : lo < 2 ^ 24) by (apply N.mod_lt; discriminate).
  assert (Hsh : shlw U32 r 8 = crc_run lo (zeros 8)).
  { rewrite (crc_run_low 8 lo) by (try exact Hlo; lia).
    unfold shlw. rewrite N.shiftl_mul_pow2. subst lo. change (N.of_nat 8) with 8.
    change U32 with (2 ^ 24 * 2 ^ 8). rewrite N.mul_mod_distr_r by discriminate. reflexivity. }
  assert (Hxor : crc_run (N.shiftl t 24) (bits_of 8 b) = crc_run 0 (bits_of 8 (N.lxor t b))).
  { assert (E1 : xorl (bits_of 8 t) (bits_of 8 (N.lxor t b)) = bits_of 8 b).
    { cbn [bits_of]. unfold xorl. cbn [combine map fst snd]. rewrite !N.lxor_spec.
      rewrite <- !xorb_assoc, !xorb_nilpotent, !xorb_false_l. reflexivity. }
    rewrite <- E1. rewrite <- (N.lxor_0_r (N.shiftl t 24)). rewrite crc_run_lxor by reflexivity.
    replace (crc_run (N.shiftl t 24) (bits_of 8 t)) with 0; [apply N.lxor_0_l|].
    symmetry. pose proof (crc_run_self 8 t ltac:(lia)) as E. change (32 - N.of_nat 8) with 24 in E.
    rewrite <- N.shiftl_mul_pow2 in E. rewrite N.mod_small in E; [exact E|].
    apply (shiftl_lt_pow t 24 32 8); [exact Ht|reflexivity]. }
  rewrite Hsh, <- Hxor. rewrite Er at 1.
  rewrite <- (xorl_zeros_r (bits_of 8 b)) at 2. rewrite crc_run_lxor by reflexivity. reflexivity.
Qed.

Lemma crc_loop_spec l : forall r, bytes l -> r < 2 ^ 32 -> crc_loop r l = Ok (crc_run r (unpack l)).
Proof.
  induction l as [|b l IH]; intros r Hb Hr; [reflexivity|].
  apply bytes_cons in Hb. destruct Hb as [Hb Hl].
  cbn [crc_loop]. rewrite crc_byte by assumption. cbn [bind].
  change (unpack (b :: l)) with (bits_of 8 b ++ unpack l). rewrite crc_run_app.
  apply IH; [assumption|]. apply crc_run_lt. assumption.
Qed.

Lemma crc32b_spec l : bytes l -> crc32b l = Ok (crc_spec l).
Proof. intros H. unfold crc32b, crc_spec. apply crc_loop_spec; [assumption|reflexivity]. Qed.

Lemma crc_spec_lt l : crc_spec l < 2 ^ 32.
Proof. apply crc_run_lt. reflexivity. Qed.

(** ** polynomial division *)
Lemma clmul_snoc q b g : clmul (q ++ [b]) g = N.lxor (2 * clmul q g) (if b then g else 0).
Proof. unfold clmul. rewrite fold_left_app. reflexivity. Qed.

Lemma poly_step p r (b : bool) : poly_rem p r -> poly_rem (N.lxor (2 * p) (if b then 2 ^ 32 else 0)) (crc_bit r b).
Proof.
  intros [Hr [q Hq]]. split; [apply crc_bit_lt|].
  exists (q ++ [xorb (N.testbit r 31) b]). rewrite clmul_snoc, Hq, double_lxor.
  assert (E : 2 * r = N.lxor (if N.testbit r 31 then 2 ^ 32 else 0) ((2 * r) mod 2 ^ 32)).
  { apply N.bits_inj. intros k. rewrite N.lxor_spec, (testbit_mod _ _ 32) by reflexivity.
    replace (2 * r) with (N.shiftl r 1) by (rewrite N.shiftl_mul_pow2; lia).
    rewrite testbit_shiftl. destruct (N.ltb_spec k 32) as [Hk|Hk].
    - replace (N.testbit (if N.testbit r 31 then 2 ^ 32 else 0) k) with false.
      + rewrite xorb_false_l. reflexivity.
      + destruct (N.testbit r 31); [|symmetry; apply N.bits_0].
        symmetry. apply N.pow2_bits_false. lia.
    - destruct (N.ltb_spec k 1); [lia|]. rewrite xorb_false_r.
      destruct (N.eq_dec k 32) as [->|Hn].
      + change (32 - 1) with 31. destruct (N.testbit r 31) eqn:T; [reflexivity|]. rewrite N.bits_0. reflexivity.
      + rewrite (testbit_small r (2 ^ 32) (k - 1) Hr) by (apply N.leb_le; apply N.pow_le_mono_r; lia).
        destruct (N.testbit r 31); [|symmetry; apply N.bits_0].
        symmetry. apply N.pow2_bits_false. congruence. }
  rewrite E. unfold crc_bit. cbv zeta.
  generalize ((2 * r) mod 2 ^ 32) (2 * clmul q GEN). intros x y.
  change GEN with (N.lxor (2 ^ 32) POLY).
  apply N.bits_inj. intros k.
  destruct (N.testbit r 31), b; cbn [xorb];
    rewrite ?N.lxor_spec, ?N.bits_0; generalize (N.testbit x k) (N.testbit y k) (N.testbit POLY k) (N.testbit (2 ^ 32) k);
    intros [] [] [] []; reflexivity.
Qed.

(** the polynomial of a message: the message bits shifted by 32, with the first 32
    bits complemented (preset to ones) *)
Definition message_poly (bits : list bool) : N :=
  N.lxor (N.shiftl (N_of_bits bits) 32) (N.shiftl 0xFFFFFFFF (N.of_nat (length bits))).

Lemma crc_poly_bits bits : poly_rem (message_poly bits) (crc_run 0xFFFFFFFF bits).
Proof.
  induction bits as [|b bits IH] using rev_ind.
  - split; [reflexivity|]. exists []. reflexivity.
  - rewrite crc_run_app. cbn [crc_run fold_left]. fold (crc_run 0xFFFFFFFF bits).
    replace (message_poly (bits ++ [b])) with (N.lxor (2 * message_poly bits) (if b then 2 ^ 32 else 0)).
    + apply poly_step. exact IH.
    + unfold message_poly. rewrite N_of_bits_snoc, app_length. cbn [length].
      rewrite double_lxor.
      replace (N.of_nat (length bits + 1)) with (N.of_nat (length bits) + 1) by lia.
      replace (N.shiftl 4294967295 (N.of_nat (length bits) + 1)) with (2 * N.shiftl 4294967295 (N.of_nat (length bits))).
      2: { rewrite !N.shiftl_mul_pow2, N.pow_add_r. lia. }
      rewrite !N.lxor_assoc. rewrite (N.lxor_comm (2 * N.shiftl 4294967295 _)). rewrite <- !N.lxor_assoc. f_equal.
      replace (2 * N_of_bits bits + N.b2n b) with (N.lxor (N.shiftl (N_of_bits bits) 1) (N.b2n b)).
      2: { rewrite N.lxor_lor.
           - rewrite (lor_add 1); rewrite ?N.shiftl_mul_pow2; [lia|apply N.mod_mul; discriminate|destruct b; reflexivity].
           - apply N.bits_inj_0. intros k. rewrite N.land_spec, testbit_shiftl.
             destruct (N.ltb_spec k 1); [reflexivity|].
             rewrite (testbit_small (N.b2n b) 2 k); [apply andb_false_r|destruct b; reflexivity|].
             apply N.leb_le. change 2 with (2 ^ 1) at 1. apply N.pow_le_mono_r; lia. }
      rewrite N.shiftl_lxor. f_equal.
      * rewrite N.shiftl_shiftl. rewrite !N.shiftl_mul_pow2, N.pow_add_r. lia.
      * destruct b; reflexivity.
Qed.

(** ** residue *)
Lemma crc_residue r v : r < 2 ^ 32 -> v < 2 ^ 32 -> crc_run r (bits_of 32 v) = 0 <-> v = r.
Proof.
  intros Hr Hv. split.
  - intros H.
    assert (E : crc_run r (bits_of 32 v) = N.lxor (crc_run (N.lxor r v) (zeros 32)) (crc_run v (bits_of 32 v))).
    { rewrite <- crc_run_lxor by reflexivity. rewrite N.lxor_assoc, N.lxor_nilpotent, N.lxor_0_r.
      change (zeros 32) with (zeros (length (bits_of 32 v))). rewrite xorl_zeros_l. reflexivity. }
    rewrite H, crc_run_self32, N.lxor_0_r in E by assumption. symmetry in E.
    apply crc_run_zeros_inv in E; [|apply lxor_lt; assumption].
    apply N.lxor_eq in E. congruence.
  - intros ->. apply crc_run_self32. assumption.
Qed.

Lemma bits_of_N_of_bits l : bits_of (length l) (N_of_bits l) = l.
Proof.
  induction l as [|b bs IH]; [reflexivity|].
  cbn [length bits_of].
  assert (E : N_of_bits (b :: bs) = N.b2n b * 2 ^ N.of_nat (length bs) + N_of_bits bs).
  { change (b :: bs) with ([b] ++ bs). rewrite N_of_bits_app. reflexivity. }
  pose proof (N_of_bits_lt bs) as L. rewrite E. f_equal.
  - apply Bool.eq_true_iff_eq. rewrite N.testbit_true.
    rewrite N.div_add_l by (apply N.pow_nonzero; lia). rewrite N.div_small by assumption.
    destruct b; vm_compute; split; congruence.
  - rewrite <- IH at 4. rewrite <- bits_of_mod. f_equal.
    rewrite N.add_comm, N.mod_add by (apply N.pow_nonzero; lia). apply N.mod_small. assumption.
Qed.

Lemma bits32_be l : length l = 4%nat -> bytes l -> unpack l = bits_of 32 (be l).
Proof.
  intros Hl Hb. destruct l as [|b0 [|b1 [|b2 [|b3 [|]]]]]; try discriminate.
  repeat match goal with H : bytes (_ :: _) |- _ => apply bytes_cons in H; destruct H end.
  assert (E : be [b0; b1; b2; b3] = N_of_bits (unpack [b0; b1; b2; b3])).
  { change (unpack [b0; b1; b2; b3]) with (bits_of 8 b0 ++ bits_of 8 b1 ++ bits_of 8 b2 ++ bits_of 8 b3 ++ []).
    rewrite !N_of_bits_app, !app_length, !bits_of_length, !bits_of_small by assumption.
    unfold be. cbn [fold_left length]. change (N_of_bits []) with 0.
    change (2 ^ N.of_nat (8 + (8 + (8 + 0)))) with 16777216. change (2 ^ N.of_nat (8 + (8 + 0))) with 65536.
    change (2 ^ N.of_nat (8 + 0)) with 256. change (2 ^ N.of_nat 0) with 1. lia. }
  rewrite E. symmetry. exact (bits_of_N_of_bits (unpack [b0; b1; b2; b3])).
Qed.

Lemma crc_suffix l s : bytes l -> bytes s -> length s = 4%nat ->
  crc_spec (l ++ s) = 0 <-> be s = crc_spec l.
Proof.
  intros Hl Hs Hn. unfold crc_spec at 1. rewrite unpack_app, crc_run_app.
  rewrite (bits32_be s) by assumption.
  apply crc_residue; [apply crc_spec_lt|]. pose proof (be_lt s Hs) as H. rewrite Hn in H. exact H.
Qed.

(** ** error detection *)
Lemma xor_bytes_length a b : length a = length b -> length (xor_bytes a b) = length a.
Proof. revert b. induction a as [|x a IH]; intros [|y b] H; try discriminate; [reflexivity|]. cbn. f_equal. apply IH. cbn in H. lia. Qed.

Lemma xor_bytes_bytes a b : bytes a -> bytes b -> bytes (xor_bytes a b).
Proof.
  revert b. induction a as [|x a IH]; intros [|y b] Ha Hb; try constructor.
  - apply bytes_cons in Ha, Hb. apply (lxor_lt 8); [apply Ha|apply Hb].
  - apply bytes_cons in Ha, Hb. apply IH; [apply Ha|apply Hb].
Qed.

Lemma unpack_xor a b : length a = length b -> unpack (xor_bytes a b) = xorl (unpack a) (unpack b).
Proof.
  revert b. induction a as [|x a IH]; intros [|y b] H; try discriminate; [reflexivity|].
  cbn [xor_bytes]. change (unpack (?x :: ?l)) with (bits_of 8 x ++ unpack l).
  rewrite IH by (cbn in H; lia). cbn [bits_of app]. unfold xorl. cbn [combine map fst snd].
  rewrite !N.lxor_spec. reflexivity.
Qed.

(** the error is invisible exactly when its own register run is zero *)
Lemma crc_error l e : length l = length e ->
  crc_spec (xor_bytes l e) = N.lxor (crc_spec l) (crc_run 0 (unpack e)).
Proof.
  intros H. unfold crc_spec. rewrite unpack_xor by assumption.
  rewrite <- crc_run_lxor by (rewrite !unpack_length; congruence). rewrite N.lxor_0_r. reflexivity.
Qed.

Lemma crc_error_detected l e : length l = length e -> crc_spec l = 0 ->
  crc_run 0 (unpack e) <> 0 -> crc_spec (xor_bytes l e) <> 0.
Proof. intros H H0 He. rewrite crc_error, H0, N.lxor_0_l by assumption. exact He. Qed.

Lemma burst_nonzero w v : (w <= 32)%nat -> v < 2 ^ N.of_nat w -> v <> 0 -> crc_run 0 (bits_of w v) <> 0.
Proof.
  intros Hw Hv Hn H.
  (* pad to 32 bits on the left *)
  assert (P : crc_run 0 (bits_of 32 v) = 0).
  { assert (G : forall k, (w + k <= 32)%nat -> crc_run 0 (bits_of (w + k) v) = 0).
    { induction k as [|k IH]; intros Hk; [rewrite Nat.add_0_r; exact H|].
      rewrite Nat.add_succ_r. cbn [bits_of]. rewrite crc_run_cons.
      rewrite (testbit_small v _ (N.of_nat (w + k)) Hv) by (apply N.leb_le; apply N.pow_le_mono_r; lia).
      change (crc_bit 0 false) with 0. apply IH. lia. }
    replace 32%nat with (w + (32 - w))%nat by lia. apply G. lia. }
  assert (Hv32 : v < 2 ^ 32).
  2: { apply (proj1 (crc_residue 0 v ltac:(reflexivity) Hv32)) in P. contradiction. }
  eapply N.lt_le_trans; [exact Hv|]. apply N.pow_le_mono_r; lia.
Qed.

Lemma N_of_bits_zero l : N_of_bits l = 0 -> l = zeros (length l).
Proof.
  induction l as [|b l IH] using rev_ind; intros H; [reflexivity|].
  rewrite N_of_bits_snoc in H. assert (b = false) by (destruct b; cbn in H; [lia|reflexivity]). subst b.
  rewrite IH at 1 by (cbn in H; lia). rewrite app_length. cbn [length].
  unfold zeros. rewrite repeat_app. reflexivity.
Qed.

(** a nonzero error confined to 32 consecutive bits *)
Lemma burst_detected a burst c : (length burst <= 32)%nat -> burst <> zeros (length burst) ->
  crc_run 0 (zeros a ++ burst ++ zeros c) <> 0.
Proof.
  intros Hl Hb H. rewrite !crc_run_app, crc_run_zeros0 in H.
  apply crc_run_zeros_inv in H; [|apply crc_run_lt; reflexivity].
  rewrite <- (bits_of_N_of_bits burst) in H. revert H. apply burst_nonzero; [assumption|apply N_of_bits_lt|].
  intros E. apply Hb. apply N_of_bits_zero. exact E.
Qed.

(** ** few-bit errors: [pw k] is the effect of one set bit followed by [k] others *)
Definition pw (k : nat) : N := crc_run POLY (zeros k).

Lemma pw_S k : pw (S k) = crc_bit (pw k) false.
Proof.
  unfold pw. replace (zeros (S k)) with (zeros k ++ [false]); [rewrite crc_run_app; reflexivity|].
  unfold zeros. change [false] with (repeat false 1). rewrite <- repeat_app. f_equal. lia.
Qed.
Lemma pw_lt k : pw k < 2 ^ 32.
Proof. apply crc_run_lt. reflexivity. Qed.
Lemma pw_add a k : pw (a + k) = crc_run (pw k) (zeros a).
Proof. unfold pw. rewrite <- crc_run_app. unfold zeros. rewrite <- repeat_app. do 2 f_equal. lia. Qed.

Fixpoint ones (l : list bool) : list nat :=
  match l with [] => [] | b :: l' => if b then length l' :: ones l' else ones l' end.

Lemma ones_lt l x : In x (ones l) -> (x < length l)%nat.
Proof.
  induction l as [|b l IH]; [contradiction|]. cbn [ones length]. destruct b.
  - intros [<-|H]; [lia|]. specialize (IH H). lia.
  - intros H. specialize (IH H). lia.
Qed.

Lemma ones_count l : length (ones l) = count_occ Bool.bool_dec l true.
Proof.
  induction l as [|b l IH]; [reflexivity|]. cbn [ones count_occ].
  destruct b; destruct (Bool.bool_dec _ true); try congruence; cbn [length]; congruence.
Qed.

Lemma crc_run_one r l : crc_run r l = N.lxor (crc_run r (zeros (length l))) (crc_run 0 l).
Proof. rewrite <- crc_run_lxor by (apply repeat_length). rewrite N.lxor_0_r, xorl_zeros_l. reflexivity. Qed.

Lemma crc_ones l : crc_run 0 l = fold_right (fun k a => N.lxor (pw k) a) 0 (ones l).
Proof.
  induction l as [|b l IH]; [reflexivity|]. cbn [ones]. rewrite crc_run_cons.
  destruct b.
  - change (crc_bit 0 true) with POLY. rewrite crc_run_one. cbn [fold_right]. rewrite IH. reflexivity.
  - change (crc_bit 0 false) with 0. exact IH.
Qed.

(** a small trie of positive numbers *)
Inductive trie := Lf | Nd (b : bool) (l r : trie).
Fixpoint t_add (p : positive) (t : trie) : trie :=
  match p, t with
  | xH, Lf => Nd true Lf Lf
  | xH, Nd _ l r => Nd true l r
  | xO p', Lf => Nd false (t_add p' Lf) Lf
  | xO p', Nd b l r => Nd b (t_add p' l) r
  | xI p', Lf => Nd false Lf (t_add p' Lf)
  | xI p', Nd b l r => Nd b l (t_add p' r)
  end.
Fixpoint t_mem (p : positive) (t : trie) : bool :=
  match p, t with
  | _, Lf => false
  | xH, Nd b _ _ => b
  | xO p', Nd _ l _ => t_mem p' l
  | xI p', Nd _ _ r => t_mem p' r
  end.
Lemma t_mem_add_same p : forall t, t_mem p (t_add p t) = true.
Proof. induction p as [p IH|p IH|]; intros [|b l r]; cbn; auto. Qed.
Lemma t_mem_add_mono p q : forall t, t_mem q t = true -> t_mem q (t_add p t) = true.
Proof. revert q. induction p as [p IH|p IH|]; intros [q|q|] [|b l r]; cbn; auto; discriminate. Qed.

Definition n_add (n : N) t := match n with 0 => t | Npos p => t_add p t end.
Definition n_mem (n : N) t := match n with 0 => true | Npos p => t_mem p t end.

(** powers [r, r0, r00, ...]: the first [n] iterates *)
Fixpoint collect (n : nat) (r : N) (t : trie) : trie :=
  match n with O => t | S n' => collect n' (crc_bit r false) (n_add r t) end.
Fixpoint clash_free (n : nat) (r : N) (t : trie) : bool :=
  match n with
  | O => true
  | S n' => negb (n_mem (N.lxor r POLY) t) && clash_free n' (crc_bit r false) t
  end.

Lemma n_mem_add_same x t : n_mem x (n_add x t) = true.
Proof. destruct x; [reflexivity|]. apply t_mem_add_same. Qed.
Lemma n_mem_add_mono x y t : n_mem y t = true -> n_mem y (n_add x t) = true.
Proof. destruct x, y; cbn; auto. apply t_mem_add_mono. Qed.

Lemma collect_mono n : forall r t y, n_mem y t = true -> n_mem y (collect n r t) = true.
Proof. induction n as [|n IH]; intros r t y H; [exact H|]. cbn [collect]. apply IH. apply n_mem_add_mono. exact H. Qed.
Lemma collect_spec n : forall k0 t j, (j < n)%nat -> n_mem (pw (k0 + j)) (collect n (pw k0) t) = true.
Proof.
  induction n as [|n IH]; intros k0 t j Hj; [lia|]. cbn [collect]. rewrite <- pw_S.
  destruct j as [|j].
  - rewrite Nat.add_0_r. apply collect_mono. apply n_mem_add_same.
  - rewrite <- Nat.add_succ_comm. apply IH. lia.
Qed.
Lemma clash_free_spec n t : forall k0 j, clash_free n (pw k0) t = true -> (j < n)%nat ->
  n_mem (N.lxor (pw (k0 + j)) POLY) t = false.
Proof.
  induction n as [|n IH]; intros k0 j H Hj; [lia|]. cbn [clash_free] in H. rewrite <- pw_S in H.
  apply andb_prop in H. destruct H as [H1 H2]. destruct j as [|j].
  - rewrite Nat.add_0_r. destruct (n_mem _ t); [discriminate|reflexivity].
  - rewrite <- Nat.add_succ_comm. apply IH; [exact H2|lia].
Qed.

(** 4098 bytes *)
Definition MAXBITS : nat := N.to_nat 32784.

Lemma no_clash : clash_free (Nat.pred MAXBITS) (pw 1) (collect MAXBITS POLY Lf) = true.
Proof. vm_compute. reflexivity. Qed.

Lemma pw_three i j : (0 < i < MAXBITS)%nat -> (j < MAXBITS)%nat -> N.lxor (pw i) (pw j) <> POLY.
Proof.
  intros Hi Hj H.
  pose proof (clash_free_spec _ _ 1 (i - 1) no_clash ltac:(lia)) as C.
  replace (1 + (i - 1))%nat with i in C by lia.
  replace (N.lxor (pw i) POLY) with (pw j) in C.
  - rewrite <- (Nat.add_0_l j) in C. change POLY with (pw 0) in C. rewrite collect_spec in C by assumption. discriminate.
  - rewrite <- H. rewrite <- N.lxor_assoc, N.lxor_nilpotent, N.lxor_0_l. reflexivity.
Qed.
Lemma pw_two i : (0 < i < MAXBITS)%nat -> pw i <> POLY.
Proof.
  intros Hi H. pose proof (clash_free_spec _ _ 1 (i - 1) no_clash ltac:(lia)) as C.
  replace (1 + (i - 1))%nat with i in C by lia. rewrite H, N.lxor_nilpotent in C. discriminate.
Qed.
Lemma pw_one i : pw i <> 0.
Proof. intros H. apply crc_run_zeros_inv in H; [discriminate|reflexivity]. Qed.

Lemma ones_sorted l : forall a r, ones l = a :: r -> forall x, In x r -> (x < a)%nat.
Proof.
  induction l as [|b l IH]; intros a r H x Hx; [discriminate|].
  cbn [ones] in H. destruct b; [|exact (IH _ _ H x Hx)].
  injection H as <- <-. apply ones_lt in Hx. exact Hx.
Qed.
Lemma ones_tail l a r : ones l = a :: r -> exists l', r = ones l' /\ (length l' <= length l)%nat.
Proof.
  induction l as [|b l IH]; intros H; [discriminate|]. cbn [ones] in H. destruct b.
  - injection H as <- <-. exists l. cbn. auto.
  - destruct (IH H) as (l' & E & L). exists l'. cbn. auto.
Qed.

Lemma xorl_zeros n : xorl (zeros n) (zeros n) = zeros n.
Proof. generalize (xorl_zeros_l (zeros n)). unfold zeros at 2. rewrite repeat_length. auto. Qed.

Lemma few_bits_detected l : (length l <= MAXBITS)%nat ->
  (1 <= count_occ Bool.bool_dec l true <= 3)%nat -> crc_run 0 l <> 0.
Proof.
  intros Hl Hc. rewrite <- ones_count in Hc. rewrite crc_ones.
  pose proof (fun x => ones_lt l x) as Hlt.
  destruct (ones l) as [|a r] eqn:E1; [cbn in Hc; lia|].
  destruct (ones_tail _ _ _ E1) as (l1 & -> & _).
  pose proof (ones_sorted _ _ _ E1) as S1.
  destruct (ones l1) as [|b r] eqn:E2.
  { cbn [fold_right]. rewrite N.lxor_0_r. apply pw_one. }
  destruct (ones_tail _ _ _ E2) as (l2 & -> & _).
  pose proof (ones_sorted _ _ _ E2) as S2.
  assert (b < a)%nat by (apply S1; left; reflexivity).
  assert (a < length l)%nat by (apply Hlt; left; reflexivity).
  destruct (ones l2) as [|c r] eqn:E3.
  { cbn [fold_right]. rewrite N.lxor_0_r. intros H1.
    replace a with (b + (a - b))%nat in H1 by lia. rewrite (pw_add b) in H1.
    change (pw b) with (crc_run POLY (zeros b)) in H1.
    rewrite <- crc_run_lxor in H1 by reflexivity.
    rewrite xorl_zeros in H1.
    apply crc_run_zeros_inv in H1; [|apply lxor_lt; [apply pw_lt|reflexivity]].
    apply N.lxor_eq in H1. revert H1. apply pw_two. lia. }
  destruct (ones_tail _ _ _ E3) as (l3 & -> & _).
  assert (Hcb : (c < b)%nat) by (apply S2; left; reflexivity).
  destruct (ones l3) as [|d r]; [|cbn in Hc; lia].
  cbn [fold_right]. rewrite N.lxor_0_r. intros H1.
  replace a with (c + (a - c))%nat in H1 by lia. replace b with (c + (b - c))%nat in H1 by lia.
  rewrite !(pw_add c) in H1. change (pw c) with (crc_run POLY (zeros c)) in H1.
  rewrite <- crc_run_lxor in H1 by reflexivity. rewrite xorl_zeros in H1.
  rewrite <- crc_run_lxor in H1 by reflexivity. rewrite xorl_zeros in H1.
  apply crc_run_zeros_inv in H1.
  2: { apply lxor_lt; [apply pw_lt|]. apply lxor_lt; [apply pw_lt|reflexivity]. }
  apply N.lxor_eq in H1.
  assert (H3 : N.lxor (pw (a - c)) (pw (b - c)) = POLY).
  { rewrite H1. rewrite (N.lxor_comm (pw (b - c))), N.lxor_assoc, N.lxor_nilpotent, N.lxor_0_r. reflexivity. }
  revert H3. apply pw_three; lia.
Qed.

(** ** detection, on byte strings *)
Lemma burst_run e w : (w <= 32)%nat -> burst w e -> crc_run 0 (unpack e) <> 0.
Proof.
  intros Hw (a & b & c & E & Hb & Hi). rewrite E. apply burst_detected; [lia|].
  intros Hz. rewrite Hz in Hi. apply repeat_spec in Hi. discriminate.
Qed.
Lemma weight_run e : (length e <= N.to_nat 4098)%nat -> (1 <= weight e <= 3)%nat -> crc_run 0 (unpack e) <> 0.
Proof. intros He Hw. apply few_bits_detected; [|exact Hw]. rewrite unpack_length. unfold MAXBITS. lia. Qed.

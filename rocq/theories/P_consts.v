(** Proofs about set_bits!. *)
From Verif Require Import Prelude Layout Facts M_consts S_consts.

Definition spec_fields (fs : list (N * N)) : list (nat * N) := map (fun f => (N.to_nat (snd f), fst f)) fs.
Definition fit (fs : list (N * N)) : Prop := Forall (fun f => 0 < snd f /\ fst f < 2 ^ snd f) fs.

Lemma shl_ok m w v s : s < w -> v * 2 ^ s < 2 ^ w -> shl_i32 m w v (Z.of_N s) = Ok (v * 2 ^ s).
Proof.
  intros H L. unfold shl_i32. destruct (Z.leb_spec 0 (Z.of_N s)); [|lia]. destruct (Z.ltb_spec (Z.of_N s) (Z.of_N w)); [|lia].
  cbn [andb]. rewrite N2Z.id, shlw_small by exact L. reflexivity.
Qed.

Lemma sizes_width fs : N.of_nat (length (field_bits (spec_fields fs))) = sizes fs.
Proof.
  induction fs as [|[v s] r IH]; [reflexivity|]. cbn [spec_fields map sizes fst snd]. unfold field_bits in *. cbn [flat_map fst snd].
  rewrite app_length, bits_of_length. unfold spec_fields in IH. lia.
Qed.

Lemma bits_lt fs : N_of_bits (field_bits (spec_fields fs)) < 2 ^ sizes fs.
Proof. rewrite <- sizes_width. apply N_of_bits_lt. Qed.

Lemma set_bits_ok m w fs : fit fs -> forall sh, sizes fs <= sh -> sh <= w ->
  set_bits m w (Z.of_N sh) fs = Ok (N_of_bits (field_bits (spec_fields fs)) * 2 ^ (sh - sizes fs)).
Proof.
  induction 1 as [|[v s] r (P & V) F IH]; intros sh S W; [reflexivity|]. cbn [fst snd] in P, V. cbn [sizes] in S.
  assert (E1 : shl_i32 m w v (Z.of_N sh - Z.of_N s) = Ok (v * 2 ^ (sh - s))).
  { replace (Z.of_N sh - Z.of_N s)%Z with (Z.of_N (sh - s)) by lia. apply shl_ok; [lia|].
    apply N.lt_le_trans with (2 ^ s * 2 ^ (sh - s)).
    - apply N.mul_lt_mono_pos_r; [|exact V]. apply N.neq_0_lt_0, N.pow_nonzero. discriminate.
    - rewrite <- N.pow_add_r. apply N.pow_le_mono_r; lia. }
  assert (B : N_of_bits (field_bits (spec_fields ((v, s) :: r))) = v * 2 ^ sizes r + N_of_bits (field_bits (spec_fields r))).
  { cbn [spec_fields map fst snd]. unfold field_bits. cbn [flat_map fst snd]. rewrite N_of_bits_app.
    fold (field_bits (spec_fields r)). rewrite bits_of_small by (rewrite N2Nat.id; exact V). rewrite <- (sizes_width r).
    unfold field_bits, spec_fields. lia. }
  rewrite B. cbn [sizes]. destruct r as [|f2 r].
  - cbn [set_bits sizes]. rewrite E1. f_equal. cbn [spec_fields map]. change (N_of_bits (field_bits [])) with 0.
    rewrite N.pow_0_r. replace (sh - (s + 0)) with (sh - s) by lia. lia.
  - change (set_bits m w (Z.of_N sh) ((v, s) :: f2 :: r)) with
      (a <- shl_i32 m w v (Z.of_N sh - Z.of_N s) ;; b <- set_bits m w (Z.of_N sh - Z.of_N s) (f2 :: r) ;; Ok (N.lor a b)).
    rewrite E1. cbn [bind]. set (r2 := f2 :: r) in *. replace (Z.of_N sh - Z.of_N s)%Z with (Z.of_N (sh - s)) by lia.
    rewrite IH by lia. cbn [bind]. f_equal. pose proof (bits_lt r2) as L.
    rewrite (lor_add (sh - s)).
    + replace (sh - s) with (sizes r2 + (sh - (s + sizes r2))) at 1 by lia. rewrite N.pow_add_r.
      replace (sh - s - sizes r2) with (sh - (s + sizes r2)) by lia. lia.
    + apply N.mod_mul. apply N.pow_nonzero. discriminate.
    + replace (2 ^ (sh - s)) with (2 ^ sizes r2 * 2 ^ (sh - s - sizes r2)) by (rewrite <- N.pow_add_r; f_equal; lia).
      apply N.mul_lt_mono_pos_r; [|exact L]. apply N.neq_0_lt_0, N.pow_nonzero. discriminate.
Qed.

Lemma N_of_bits_zeros n : N_of_bits (bits_of n 0) = 0.
Proof. rewrite N_of_bits_bits_of. apply N.mod_0_l. apply N.pow_nonzero. discriminate. Qed.

Lemma set_bits_packed m w fs : fit fs -> sizes fs <= w ->
  set_bits m w (Z.of_N w) fs = Ok (N_of_bits (field_bits (spec_fields fs ++ [(N.to_nat (w - sizes fs), 0)]))).
Proof.
  intros F S. rewrite set_bits_ok by (assumption || lia). f_equal. unfold field_bits. rewrite flat_map_app.
  rewrite N_of_bits_app. cbn [flat_map fst snd]. rewrite app_nil_r, N_of_bits_zeros, bits_of_length.
  rewrite N2Nat.id. lia.
Qed.

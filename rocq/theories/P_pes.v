(** Proofs about PES headers (M_pes). *)
From Verif Require Import Prelude Layout Facts S_ts M_ts M_pes P_ts.

Lemma shl64 a k n : a * 2 ^ k < 2 ^ n -> (n <=? 64) = true -> shlw U64 a k = N.shiftl a k /\ N.shiftl a k < 2 ^ n.
Proof.
  intros H Hn. apply N.leb_le in Hn. rewrite <- N.shiftl_mul_pow2 in H. split; [|assumption].
  unfold shlw. apply N.mod_small. apply N.lt_le_trans with (2 ^ n); [assumption|].
  change U64 with (2 ^ 64). apply N.pow_le_mono_r; lia.
Qed.

(** the five timestamp bytes *)
Lemma pts_core b9 b10 b11 b12 b13 :
  b9 < 256 -> b10 < 256 -> b11 < 256 -> b12 < 256 -> b13 < 256 ->
  N.lor (N.lor (N.lor (N.lor (shlw U64 (N.land b9 14) 29) (shlw U64 b10 22))
       (shlw U64 (N.land b11 254) 14)) (shlw U64 b12 7)) (N.shiftr b13 1)
  = let l := [b9; b10; b11; b12; b13] in
    field l 4 3 * 2 ^ 30 + field l 8 15 * 2 ^ 15 + field l 24 15.
Proof.
  intros H9 H10 H11 H12 H13. cbv zeta. fieldify.
  rewrite <- (lor_add 15).
  2: { match goal with |- (?a * 2 ^ 30 + ?b * 2 ^ 15) mod _ = 0 =>
         replace (a * 2 ^ 30 + b * 2 ^ 15) with ((a * 2 ^ 15 + b) * 2 ^ 15)
           by (change (2 ^ 30) with (2 ^ 15 * 2 ^ 15); ring) end.
       apply N.mod_mul. discriminate. }
  2: apply N_of_bits_lt.
  rewrite <- (lor_add 30).
  2: apply N.mod_mul; discriminate.
  2: { match goal with |- N_of_bits ?l * _ < _ => pose proof (N_of_bits_lt l) as HH end.
       cbn [length] in HH. change (2 ^ N.of_nat 15) with 32768 in HH.
       change (2 ^ 15) with 32768. change (2 ^ 30) with 1073741824. lia. }
  change (2 ^ 30) with 1073741824. change (2 ^ 15) with 32768.
  pose proof (land_le_r b9 14) as L9. pose proof (land_lt_l b11 254 256 H11) as L11.
  destruct (shl64 (N.land b9 14) 29 33) as [E1 B1];
    [change (2 ^ 29) with 536870912; change (2 ^ 33) with 8589934592; lia|reflexivity|].
  destruct (shl64 b10 22 33) as [E2 B2];
    [change (2 ^ 22) with 4194304; change (2 ^ 33) with 8589934592; lia|reflexivity|].
  destruct (shl64 (N.land b11 254) 14 33) as [E3 B3];
    [change (2 ^ 14) with 16384; change (2 ^ 33) with 8589934592; lia|reflexivity|].
  destruct (shl64 b12 7 33) as [E4 B4];
    [change (2 ^ 7) with 128; change (2 ^ 33) with 8589934592; lia|reflexivity|].
  rewrite E1, E2, E3, E4.
  blast_pre 33%nat.
  { repeat apply (lor_lt 33); try assumption.
    apply shiftr_lt; change (2 ^ 33) with 8589934592; lia. }
  { repeat apply (lor_lt 33);
    match goal with |- context [N_of_bits ?l] => pose proof (N_of_bits_lt l) as HH end;
    cbn [length] in HH; change (2 ^ 33) with 8589934592;
    (change (2 ^ N.of_nat 15) with 32768 in HH || change (2 ^ N.of_nat 3) with 8 in HH); lia. }
  all: clear - H9 H10 H11 H12 H13.
  all: bool_cases.
Qed.

Lemma get_pts_spec p : (14 <= length p)%nat -> bytes p ->
  get_pts p = Ok (field p 76 3 * 2 ^ 30 + field p 80 15 * 2 ^ 15 + field p 96 15).
Proof.
  intros Hl Hb. peel p 14%nat Hl. dbytes. unfold get_pts. cbn [get nth_error bind].
  rewrite pts_core by assumption. cbv zeta. reflexivity.
Qed.

Lemma get_dts_spec p : (19 <= length p)%nat -> bytes p ->
  get_dts p = Ok (field p 116 3 * 2 ^ 30 + field p 120 15 * 2 ^ 15 + field p 136 15).
Proof.
  intros Hl Hb. peel p 19%nat Hl. dbytes. unfold get_dts. cbn [get nth_error bind].
  rewrite pts_core by assumption. cbv zeta. reflexivity.
Qed.

Lemma get_pts_panic p : get_pts p = Panic <-> (length p < 14)%nat.
Proof.
  unfold get_pts. do 14 (destruct p as [|? p]; [split; [cbn; lia|reflexivity]|]).
  cbn. split; [discriminate|lia].
Qed.
Lemma get_dts_panic p : get_dts p = Panic <-> (length p < 19)%nat.
Proof.
  unfold get_dts. do 19 (destruct p as [|? p]; [split; [cbn; lia|reflexivity]|]).
  cbn. split; [discriminate|lia].
Qed.

Lemma pts_value ts x y z : ts < 2 ^ 33 -> x = ts / 2 ^ 30 mod 2 ^ 3 -> y = ts / 2 ^ 15 mod 2 ^ 15 ->
  z = ts mod 2 ^ 15 -> x * 2 ^ 30 + y * 2 ^ 15 + z = ts.
Proof.
  change (2 ^ 33) with 8589934592. change (2 ^ 30) with 1073741824. change (2 ^ 15) with 32768.
  change (2 ^ 3) with 8. intros H -> -> ->. dlia.
Qed.

Lemma get_pts_layout pre post prefix ts m1 m2 m3 :
  length pre = 9%nat -> bytes pre -> bytes post -> ts < 2 ^ 33 ->
  get_pts (pre ++ pts_bytes prefix ts m1 m2 m3 ++ post) = Ok ts.
Proof.
  intros Hl Hb Hp Ht. rewrite get_pts_spec.
  - f_equal. apply pts_value; [assumption|..].
    + change 76%nat with (8 * 9 + 4)%nat. rewrite (field_app_n 9) by exact Hl.
      exact (field_layout [(4%nat, prefix)] 3 (ts / 2 ^ 30)
               [(1%nat, m1); (15%nat, ts / 2 ^ 15); (1%nat, m2); (15%nat, ts); (1%nat, m3)] post eq_refl).
    + change 80%nat with (8 * 9 + 8)%nat. rewrite (field_app_n 9) by exact Hl.
      exact (field_layout [(4%nat, prefix); (3%nat, ts / 2 ^ 30); (1%nat, m1)] 15 (ts / 2 ^ 15)
               [(1%nat, m2); (15%nat, ts); (1%nat, m3)] post eq_refl).
    + change 96%nat with (8 * 9 + 24)%nat. rewrite (field_app_n 9) by exact Hl.
      exact (field_layout [(4%nat, prefix); (3%nat, ts / 2 ^ 30); (1%nat, m1);
               (15%nat, ts / 2 ^ 15); (1%nat, m2)] 15 ts [(1%nat, m3)] post eq_refl).
  - rewrite !app_length, Hl. cbn. lia.
  - apply bytes_app. split; [assumption|]. apply bytes_app. split; [apply layout_bytes|assumption].
Qed.

Lemma get_dts_layout pre post prefix ts m1 m2 m3 :
  length pre = 14%nat -> bytes pre -> bytes post -> ts < 2 ^ 33 ->
  get_dts (pre ++ pts_bytes prefix ts m1 m2 m3 ++ post) = Ok ts.
Proof.
  intros Hl Hb Hp Ht. rewrite get_dts_spec.
  - f_equal. apply pts_value; [assumption|..].
    + change 116%nat with (8 * 14 + 4)%nat. rewrite (field_app_n 14) by exact Hl.
      exact (field_layout [(4%nat, prefix)] 3 (ts / 2 ^ 30)
               [(1%nat, m1); (15%nat, ts / 2 ^ 15); (1%nat, m2); (15%nat, ts); (1%nat, m3)] post eq_refl).
    + change 120%nat with (8 * 14 + 8)%nat. rewrite (field_app_n 14) by exact Hl.
      exact (field_layout [(4%nat, prefix); (3%nat, ts / 2 ^ 30); (1%nat, m1)] 15 (ts / 2 ^ 15)
               [(1%nat, m2); (15%nat, ts); (1%nat, m3)] post eq_refl).
    + change 136%nat with (8 * 14 + 24)%nat. rewrite (field_app_n 14) by exact Hl.
      exact (field_layout [(4%nat, prefix); (3%nat, ts / 2 ^ 30); (1%nat, m1);
               (15%nat, ts / 2 ^ 15); (1%nat, m2)] 15 ts [(1%nat, m3)] post eq_refl).
  - rewrite !app_length, Hl. cbn. lia.
  - apply bytes_app. split; [assumption|]. apply bytes_app. split; [apply layout_bytes|assumption].
Qed.

Lemma pts_sum_lt p a b c : field p a 3 * 2 ^ 30 + field p b 15 * 2 ^ 15 + field p c 15 < 2 ^ 33.
Proof.
  pose proof (field_lt p a 3). pose proof (field_lt p b 15). pose proof (field_lt p c 15).
  change (2 ^ N.of_nat 3) with 8 in *. change (2 ^ N.of_nat 15) with 32768 in *.
  change (2 ^ 30) with 1073741824. change (2 ^ 15) with 32768. change (2 ^ 33) with 8589934592. lia.
Qed.

Lemma pts_range p v : bytes p -> (get_pts p = Ok v \/ get_dts p = Ok v) -> v < 2 ^ 33.
Proof.
  intros Hb [H|H].
  - destruct (Nat.ltb_spec (length p) 14) as [Hl|Hl].
    + apply get_pts_panic in Hl. congruence.
    + rewrite get_pts_spec in H by assumption. assert (v = field p 76 3 * 2 ^ 30 + field p 80 15 * 2 ^ 15 + field p 96 15) by congruence.
      subst v. apply pts_sum_lt.
  - destruct (Nat.ltb_spec (length p) 19) as [Hl|Hl].
    + apply get_dts_panic in Hl. congruence.
    + rewrite get_dts_spec in H by assumption. assert (v = field p 116 3 * 2 ^ 30 + field p 120 15 * 2 ^ 15 + field p 136 15) by congruence.
      subst v. apply pts_sum_lt.
Qed.

Lemma byte_field l i b : bytes l -> nth_error l i = Some b -> field l (8 * i) 8 = b.
Proof.
  intros Hb H. apply nth_error_split in H. destruct H as [l1 [l2 [E L]]]. subst l i.
  replace (8 * length l1)%nat with (8 * length l1 + 0)%nat by lia. rewrite field_app.
  apply bytes_app in Hb. destruct Hb as [_ Hb]. apply bytes_cons in Hb.
  change (N_of_bits (bits_of 8 b) = b). apply bits_of_small. apply Hb.
Qed.

Lemma is_prefix_spec p : (3 <= length p)%nat -> bytes p -> is_prefix p = Ok (field p 0 24 =? 1).
Proof.
  intros Hl Hb. peel p 3%nat Hl. dbytes. unfold is_prefix. cbn [get nth_error bind].
  replace (field (b :: b0 :: b1 :: p) 0 24) with (b * 65536 + b0 * 256 + b1).
  - destruct (N.eqb_spec b 0); cbn [negb].
    + destruct (N.eqb_spec b0 0); cbn [negb].
      * f_equal. subst. rewrite !N.mul_0_l, !N.add_0_l. reflexivity.
      * f_equal. symmetry. apply N.eqb_neq. lia.
    + f_equal. symmetry. apply N.eqb_neq. lia.
  - change (b * 65536 + b0 * 256 + b1 = N_of_bits (bits_of 8 b ++ bits_of 8 b0 ++ bits_of 8 b1)).
    rewrite !N_of_bits_app, !app_length, !bits_of_length, !bits_of_small by assumption.
    change (2 ^ N.of_nat (8 + 8)) with 65536. change (2 ^ N.of_nat 8) with 256. lia.
Qed.

Lemma is_syntax_spec_spec p : (4 <= length p)%nat -> bytes p ->
  is_syntax_spec p = Ok (negb (existsb (N.eqb (field p 24 8)) no_optional_header)).
Proof.
  intros Hl Hb. peel p 4%nat Hl.
  change 24%nat with (8 * 3)%nat. rewrite (byte_field _ 3 b2 Hb eq_refl). dbytes.
  unfold is_syntax_spec. cbn [get nth_error bind]. f_equal. unfold no_optional_header. cbn [existsb].
  destruct (b2 =? 188), (b2 =? 190), (b2 =? 191), (b2 =? 240), (b2 =? 241), (b2 =? 242),
    (b2 =? 248), (b2 =? 255); reflexivity.
Qed.

Lemma pes_get_length_spec m p : (6 <= length p)%nat -> bytes p ->
  pes_get_length m p = Ok (field p 32 16).
Proof.
  intros Hl Hb. peel p 6%nat Hl. dbytes. unfold pes_get_length. cbn [get nth_error bind].
  unfold U16. rewrite shlw_small by (change (2 ^ 8) with 256; lia). change (2 ^ 8) with 256.
  rewrite addw_ok by lia. f_equal.
  change (b3 * 256 + b4 = N_of_bits (bits_of 8 b3 ++ bits_of 8 b4)).
  rewrite !N_of_bits_app, !bits_of_length, !bits_of_small by assumption. reflexivity.
Qed.

Lemma pes_payload_offset_spec m p : (9 <= length p)%nat -> bytes p ->
  pes_get_payload_offset m p =
    Ok (if existsb (N.eqb (field p 24 8)) no_optional_header then 6 else 9 + field p 64 8).
Proof.
  intros Hl Hb. unfold pes_get_payload_offset.
  rewrite is_syntax_spec_spec by (try assumption; lia). cbn [bind]. rewrite negb_involutive.
  destruct (existsb _ _); [reflexivity|].
  rewrite (get_nth p 8 0) by lia. cbn [bind].
  change 64%nat with (8 * 8)%nat. rewrite (byte_field p 8 (nth 8 p 0) Hb) by (apply nth_error_nth'; lia).
  pose proof (bytes_nth p 8 Hb). apply addw_ok. unfold U16. lia.
Qed.

Lemma is_pts_spec p : (8 <= length p)%nat -> is_pts p = Ok (flag p 56).
Proof.
  intros Hl. peel p 8%nat Hl. unfold is_pts. cbn [get nth_error bind].
  fieldify. f_equal. apply flag_bit. reflexivity.
Qed.
Lemma is_dts_spec p : (8 <= length p)%nat -> is_dts p = Ok (flag p 57).
Proof.
  intros Hl. peel p 8%nat Hl. unfold is_dts. cbn [get nth_error bind].
  fieldify. f_equal. apply flag_bit. reflexivity.
Qed.

Lemma pts_delta_spec m a b : a <= PTS_MAX -> b <= PTS_MAX ->
  exists d, pts_delta m a b = Ok d /\ d <= PTS_MAX /\
    (a <= b -> d = b - a) /\ (b < a -> d + 1 = b + 2 ^ 33 - a).
Proof.
  change PTS_MAX with 8589934591. change (2 ^ 33) with 8589934592. intros Ha Hb.
  unfold pts_delta. change PTS_MAX with 8589934591. unfold U64.
  destruct (N.leb_spec a b) as [H|H].
  - exists (b - a). repeat split; try lia.
  - rewrite addw_ok by lia. cbn [bind]. rewrite subw_ok by lia. eexists. split; [reflexivity|]. lia.
Qed.

Lemma pts_to_ms_spec pts : pts_to_ms pts * 90 <= pts < (pts_to_ms pts + 1) * 90.
Proof. unfold pts_to_ms, PTS_CLOCK_MS. dlia. Qed.

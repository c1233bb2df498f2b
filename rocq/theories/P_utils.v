(** Proofs about M_utils. *)
From Verif Require Import Prelude Facts S_utils M_utils.

Lemma u8_from_bcd_spec m v : v < 256 ->
  u8_from_bcd m v = match m with
                    | Debug => if nibs_ok 2 v then Ok (nib_value 2 v) else Panic
                    | Release => Ok (nib_value 2 v)
                    end.
Proof.
  intros H. destruct m.
  - assert (S : forall v, v < N.of_nat 256 ->
      match u8_from_bcd Debug v with Ok x => nibs_ok 2 v && (x =? nib_value 2 v) | Panic => negb (nibs_ok 2 v) | Hang => false end = true)
      by (apply sweep; vm_compute; reflexivity).
    specialize (S v H). destruct (u8_from_bcd Debug v).
    + apply andb_prop in S. destruct S as [-> E]. apply N.eqb_eq in E. congruence.
    + destruct (nibs_ok 2 v); [discriminate|reflexivity].
    + discriminate.
  - assert (S : forall v, v < N.of_nat 256 ->
      match u8_from_bcd Release v with Ok x => (x =? nib_value 2 v) | _ => false end = true)
      by (apply sweep; vm_compute; reflexivity).
    specialize (S v H). destruct (u8_from_bcd Release v); try discriminate.
    apply N.eqb_eq in S. congruence.
Qed.

Lemma u8_to_bcd_spec m v : v < 256 ->
  u8_to_bcd m v = if v <? 100 then Ok (dec_nibs 2 v)
                  else match m with Debug => Panic | Release => Ok ((v + 6 * (v / 10)) mod 256) end.
Proof.
  intros H. assert (S : forall v, v < N.of_nat 256 ->
      match u8_to_bcd m v with
      | Ok x => if v <? 100 then x =? dec_nibs 2 v else match m with Debug => false | Release => x =? (v + 6 * (v / 10)) mod 256 end
      | Panic => negb (v <? 100) && match m with Debug => true | _ => false end | Hang => false end = true)
      by (destruct m; apply sweep; vm_compute; reflexivity).
  specialize (S v H). destruct (u8_to_bcd m v) as [x| |]; [|destruct (v <? 100), m; (discriminate || reflexivity)|discriminate].
  destruct (v <? 100); [apply N.eqb_eq in S; congruence|].
  destruct m; [discriminate|]. apply N.eqb_eq in S. congruence.
Qed.

Lemma nib_value2 v : nib_value 2 v = 10 * (v / 16 mod 16) + v mod 16.
Proof. cbn [nib_value]. lia. Qed.
Lemma dec_nibs2 v : dec_nibs 2 v = 16 * (v / 10 mod 10) + v mod 10.
Proof. cbn [dec_nibs]. lia. Qed.
Lemma nib_value_app a b : forall v,
  nib_value (b + a) v = 10 ^ N.of_nat b * nib_value a (v / 16 ^ N.of_nat b) + nib_value b v.
Proof.
  induction b as [|b IH]; intros v.
  - change (16 ^ N.of_nat 0) with 1. change (10 ^ N.of_nat 0) with 1. rewrite N.div_1_r. cbn [nib_value Nat.add]. lia.
  - cbn [Nat.add nib_value]. rewrite IH. replace (N.of_nat (S b)) with (N.succ (N.of_nat b)) by lia.
    rewrite !N.pow_succ_r', <- N.div_div by (try discriminate; apply N.pow_nonzero; discriminate). lia.
Qed.
Lemma nib_value_mod n : forall v, nib_value n (v mod 16 ^ N.of_nat n) = nib_value n v.
Proof.
  induction n as [|n IH]; intros v; [reflexivity|].
  cbn [nib_value]. replace (N.of_nat (S n)) with (N.succ (N.of_nat n)) by lia.
  rewrite N.pow_succ_r'. rewrite N.mod_mul_r by (try discriminate; apply N.pow_nonzero; discriminate).
  rewrite <- (IH (v / 16)). f_equal; [do 2 f_equal|].
  - rewrite N.add_comm, N.mul_comm, N.div_add_l by discriminate. rewrite (N.div_small (v mod 16)) by (apply N.mod_lt; discriminate). lia.
  - rewrite N.mul_comm, N.mod_add by discriminate. apply N.mod_mod. discriminate.
Qed.
Lemma nibs_ok_app a b : forall v, nibs_ok (b + a) v = nibs_ok a (v / 16 ^ N.of_nat b) && nibs_ok b v.
Proof.
  induction b as [|b IH]; intros v.
  - change (16 ^ N.of_nat 0) with 1. rewrite N.div_1_r, andb_true_r. reflexivity.
  - cbn [Nat.add nibs_ok]. rewrite IH. replace (N.of_nat (S b)) with (N.succ (N.of_nat b)) by lia.
    rewrite !N.pow_succ_r', <- N.div_div by (try discriminate; apply N.pow_nonzero; discriminate).
    destruct (v mod 16 <=? 9), (nibs_ok a _), (nibs_ok b _); reflexivity.
Qed.
Lemma nibs_ok_mod n : forall v, nibs_ok n (v mod 16 ^ N.of_nat n) = nibs_ok n v.
Proof.
  induction n as [|n IH]; intros v; [reflexivity|].
  cbn [nibs_ok]. replace (N.of_nat (S n)) with (N.succ (N.of_nat n)) by lia.
  rewrite N.pow_succ_r'. rewrite N.mod_mul_r by (try discriminate; apply N.pow_nonzero; discriminate).
  rewrite <- (IH (v / 16)). f_equal; [f_equal|f_equal].
  - rewrite N.mul_comm, N.mod_add by discriminate. apply N.mod_mod. discriminate.
  - rewrite N.add_comm, N.mul_comm, N.div_add_l by discriminate. rewrite (N.div_small (v mod 16)) by (apply N.mod_lt; discriminate). lia.
Qed.
Lemma dec_nibs_app a b : forall v,
  dec_nibs (b + a) v = 16 ^ N.of_nat b * dec_nibs a (v / 10 ^ N.of_nat b) + dec_nibs b v.
Proof.
  induction b as [|b IH]; intros v.
  - change (16 ^ N.of_nat 0) with 1. change (10 ^ N.of_nat 0) with 1. rewrite N.div_1_r. cbn [dec_nibs Nat.add]. lia.
  - cbn [Nat.add dec_nibs]. rewrite IH. replace (N.of_nat (S b)) with (N.succ (N.of_nat b)) by lia.
    rewrite !N.pow_succ_r', <- N.div_div by (try discriminate; apply N.pow_nonzero; discriminate). lia.
Qed.
Lemma dec_nibs_mod n : forall v, dec_nibs n (v mod 10 ^ N.of_nat n) = dec_nibs n v.
Proof.
  induction n as [|n IH]; intros v; [reflexivity|].
  cbn [dec_nibs]. replace (N.of_nat (S n)) with (N.succ (N.of_nat n)) by lia.
  rewrite N.pow_succ_r'. rewrite N.mod_mul_r by (try discriminate; apply N.pow_nonzero; discriminate).
  rewrite <- (IH (v / 10)). f_equal; [do 2 f_equal|].
  - rewrite N.add_comm, N.mul_comm, N.div_add_l by discriminate. rewrite (N.div_small (v mod 10)) by (apply N.mod_lt; discriminate). lia.
  - rewrite N.mul_comm, N.mod_add by discriminate. apply N.mod_mod. discriminate.
Qed.

Lemma nib_value_4 v : nib_value 4 v = 100 * nib_value 2 (v / 256) + nib_value 2 (v mod 256).
Proof. rewrite (nib_value_app 2 2). change 256 with (16 ^ N.of_nat 2). rewrite nib_value_mod. reflexivity. Qed.
Lemma nib_value_8 v : nib_value 8 v = 10000 * nib_value 4 (v / 65536) + nib_value 4 (v mod 65536).
Proof. rewrite (nib_value_app 4 4). change 65536 with (16 ^ N.of_nat 4). rewrite nib_value_mod. reflexivity. Qed.
Lemma nibs_ok2 v : nibs_ok 2 v = (v mod 16 <=? 9) && (v / 16 mod 16 <=? 9).
Proof. cbn [nibs_ok]. rewrite andb_true_r. reflexivity. Qed.
Lemma nibs_ok_4 v : nibs_ok 4 v = nibs_ok 2 (v / 256) && nibs_ok 2 (v mod 256).
Proof. rewrite (nibs_ok_app 2 2). change 256 with (16 ^ N.of_nat 2). rewrite nibs_ok_mod. reflexivity. Qed.
Lemma nibs_ok_8 v : nibs_ok 8 v = nibs_ok 4 (v / 65536) && nibs_ok 4 (v mod 65536).
Proof. rewrite (nibs_ok_app 4 4). change 65536 with (16 ^ N.of_nat 4). rewrite nibs_ok_mod. reflexivity. Qed.
Lemma nib_value_2_lt v : nib_value 2 v <= 165.
Proof. rewrite nib_value2. dlia. Qed.
Lemma nib_value_4_lt v : nib_value 4 v <= 16665.
Proof. rewrite nib_value_4. pose proof (nib_value_2_lt (v / 256)). pose proof (nib_value_2_lt (v mod 256)). lia. Qed.
Lemma nib_value_8_lt v : nib_value 8 v <= 166666665.
Proof. rewrite nib_value_8. pose proof (nib_value_4_lt (v / 65536)). pose proof (nib_value_4_lt (v mod 65536)). lia. Qed.

(** [guard m ok v]: aborts with debug assertions when the input is malformed *)
Lemma u16_from_bcd_spec m v : v < 65536 ->
  u16_from_bcd m v = match m with
                     | Debug => if nibs_ok 4 v then Ok (nib_value 4 v) else Panic
                     | Release => Ok (nib_value 4 v)
                     end.
Proof.
  intros H. unfold u16_from_bcd, cast, U8. rewrite N.shiftr_div_pow2. change (2 ^ 8) with 256.
  assert (Hh : (v / 256) mod 256 = v / 256) by dlia. rewrite Hh.
  rewrite !u8_from_bcd_spec by dlia. rewrite nibs_ok_4, nib_value_4.
  pose proof (nib_value_2_lt (v / 256)). pose proof (nib_value_2_lt (v mod 256)).
  destruct m.
  - destruct (nibs_ok 2 (v / 256)); [|reflexivity]. cbn [bind].
    rewrite mulw_ok by (unfold U16; lia). cbn [bind].
    destruct (nibs_ok 2 (v mod 256)); [|reflexivity]. cbn [bind andb].
    rewrite addw_ok by (unfold U16; lia). f_equal. lia.
  - cbn [bind]. rewrite mulw_ok by (unfold U16; lia). cbn [bind].
    rewrite addw_ok by (unfold U16; lia). f_equal. lia.
Qed.

Lemma u32_from_bcd_spec m v : v < 4294967296 ->
  u32_from_bcd m v = match m with
                     | Debug => if nibs_ok 8 v then Ok (nib_value 8 v) else Panic
                     | Release => Ok (nib_value 8 v)
                     end.
Proof.
  intros H. unfold u32_from_bcd, cast, U16. rewrite N.shiftr_div_pow2. change (2 ^ 16) with 65536.
  assert (Hh : (v / 65536) mod 65536 = v / 65536) by dlia. rewrite Hh.
  rewrite !u16_from_bcd_spec by dlia. rewrite nibs_ok_8, nib_value_8.
  pose proof (nib_value_4_lt (v / 65536)). pose proof (nib_value_4_lt (v mod 65536)).
  destruct m.
  - destruct (nibs_ok 4 (v / 65536)); [|reflexivity]. cbn [bind].
    rewrite mulw_ok by (unfold U32; lia). cbn [bind].
    destruct (nibs_ok 4 (v mod 65536)); [|reflexivity]. cbn [bind andb].
    rewrite addw_ok by (unfold U32; lia). f_equal. lia.
  - cbn [bind]. rewrite mulw_ok by (unfold U32; lia). cbn [bind].
    rewrite addw_ok by (unfold U32; lia). f_equal. lia.
Qed.

Lemma dec_nibs_2_lt v : dec_nibs 2 v <= 153.
Proof. rewrite dec_nibs2. dlia. Qed.
Lemma dec_nibs_4 v : dec_nibs 4 v = 256 * dec_nibs 2 (v / 100) + dec_nibs 2 (v mod 100).
Proof. rewrite (dec_nibs_app 2 2). change 100 with (10 ^ N.of_nat 2). rewrite dec_nibs_mod. reflexivity. Qed.
Lemma dec_nibs_4_lt v : dec_nibs 4 v < 65536.
Proof. rewrite dec_nibs_4. pose proof (dec_nibs_2_lt (v / 100)). pose proof (dec_nibs_2_lt (v mod 100)). lia. Qed.
Lemma dec_nibs_8 v : dec_nibs 8 v = 65536 * dec_nibs 4 (v / 10000) + dec_nibs 4 (v mod 10000).
Proof. rewrite (dec_nibs_app 4 4). change 10000 with (10 ^ N.of_nat 4). rewrite dec_nibs_mod. reflexivity. Qed.

Lemma shl8_add m a b : a < 256 -> b < 256 -> addw U16 m (shlw U16 a 8) b = Ok (256 * a + b).
Proof.
  intros Ha Hb. rewrite shlw_small by (unfold U16; change (2 ^ 8) with 256; lia). change (2 ^ 8) with 256.
  rewrite addw_ok by (unfold U16; lia). f_equal. lia.
Qed.

(** u16: only the low 8 bits of the hundreds are looked at *)
Lemma u16_to_bcd_spec m v :
  u16_to_bcd m v =
    if (v / 100) mod 256 <? 100 then Ok (256 * dec_nibs 2 ((v / 100) mod 256) + dec_nibs 2 (v mod 100))
    else match m with
         | Debug => Panic
         | Release => let h := (v / 100) mod 256 in Ok (256 * ((h + 6 * (h / 10)) mod 256) + dec_nibs 2 (v mod 100))
         end.
Proof.
  unfold u16_to_bcd, cast, U8. assert (E : (v mod 100) mod 256 = v mod 100) by dlia. rewrite E.
  rewrite !u8_to_bcd_spec by dlia.
  replace (v mod 100 <? 100) with true by (symmetry; apply N.ltb_lt; dlia).
  pose proof (dec_nibs_2_lt (v mod 100)). pose proof (dec_nibs_2_lt ((v / 100) mod 256)).
  destruct ((v / 100) mod 256 <? 100) eqn:L.
  - cbn [bind]. rewrite shl8_add by lia. reflexivity.
  - destruct m; [reflexivity|]. cbn [bind]. rewrite shl8_add; [reflexivity|dlia|lia].
Qed.
Lemma u16_to_bcd_ok m v : v < 10000 -> u16_to_bcd m v = Ok (dec_nibs 4 v).
Proof.
  intros H. rewrite u16_to_bcd_spec. assert (L : v / 100 < 100) by dlia.
  rewrite (N.mod_small (v / 100)) by lia. destruct (N.ltb_spec (v / 100) 100); [|lia].
  rewrite dec_nibs_4. reflexivity.
Qed.
Lemma u32_to_bcd_ok m v : v < 100000000 -> u32_to_bcd m v = Ok (dec_nibs 8 v).
Proof.
  intros H. unfold u32_to_bcd, cast, U16.
  rewrite (N.mod_small (v / 10000)) by dlia. rewrite (N.mod_small (v mod 10000)) by dlia.
  rewrite !u16_to_bcd_ok by dlia. cbn [bind].
  pose proof (dec_nibs_4_lt (v / 10000)). pose proof (dec_nibs_4_lt (v mod 10000)).
  rewrite shlw_small by (unfold U32; change (2 ^ 16) with 65536; lia).
  rewrite addw_ok by (unfold U32; change (2 ^ 16) with 65536; lia). rewrite dec_nibs_8. f_equal.
  change (2 ^ 16) with 65536. lia.
Qed.

(** inverse of each other *)
Lemma dec_nibs_ok n : forall v, nibs_ok n (dec_nibs n v) = true.
Proof.
  induction n as [|n IH]; intros v; [reflexivity|]. cbn [nibs_ok dec_nibs].
  replace ((16 * dec_nibs n (v / 10) + v mod 10) mod 16) with (v mod 10) by dlia.
  replace ((16 * dec_nibs n (v / 10) + v mod 10) / 16) with (dec_nibs n (v / 10)) by dlia.
  rewrite IH, andb_true_r. apply N.leb_le. dlia.
Qed.
Lemma nib_dec n : forall v, nib_value n (dec_nibs n v) = v mod 10 ^ N.of_nat n.
Proof.
  induction n as [|n IH]; intros v; [cbn; rewrite N.mod_1_r; reflexivity|]. cbn [nib_value dec_nibs].
  replace ((16 * dec_nibs n (v / 10) + v mod 10) mod 16) with (v mod 10) by dlia.
  replace ((16 * dec_nibs n (v / 10) + v mod 10) / 16) with (dec_nibs n (v / 10)) by dlia.
  rewrite IH. replace (N.of_nat (S n)) with (N.succ (N.of_nat n)) by lia. rewrite N.pow_succ_r'.
  rewrite N.mod_mul_r by (try discriminate; apply N.pow_nonzero; discriminate). lia.
Qed.
Lemma dec_nib n : forall v, nibs_ok n v = true -> dec_nibs n (nib_value n v) = v mod 16 ^ N.of_nat n.
Proof.
  induction n as [|n IH]; intros v H; [cbn; rewrite N.mod_1_r; reflexivity|].
  cbn [nib_value dec_nibs nibs_ok] in *. apply andb_prop in H. destruct H as [H1 H2]. apply N.leb_le in H1.
  replace ((10 * nib_value n (v / 16) + v mod 16) mod 10) with (v mod 16) by dlia.
  replace ((10 * nib_value n (v / 16) + v mod 16) / 10) with (nib_value n (v / 16)) by dlia.
  rewrite IH by assumption. replace (N.of_nat (S n)) with (N.succ (N.of_nat n)) by lia. rewrite N.pow_succ_r'.
  rewrite N.mod_mul_r by (try discriminate; apply N.pow_nonzero; discriminate). lia.
Qed.
Lemma nib_value_ok_lt n : forall v, nibs_ok n v = true -> nib_value n v < 10 ^ N.of_nat n.
Proof.
  induction n as [|n IH]; intros v H; [reflexivity|].
  cbn [nib_value nibs_ok] in *. apply andb_prop in H. destruct H as [H1 H2]. apply N.leb_le in H1.
  specialize (IH _ H2). replace (N.of_nat (S n)) with (N.succ (N.of_nat n)) by lia. rewrite N.pow_succ_r'. lia.
Qed.

Lemma bcd_round_u8 m v : v < 100 -> bind (u8_to_bcd m v) (u8_from_bcd m) = Ok v.
Proof.
  intros H. rewrite u8_to_bcd_spec by lia. destruct (N.ltb_spec v 100); [|lia]. cbn [bind].
  pose proof (dec_nibs_2_lt v). rewrite u8_from_bcd_spec by lia. rewrite dec_nibs_ok, nib_dec.
  change (10 ^ N.of_nat 2) with 100. rewrite N.mod_small by assumption. destruct m; reflexivity.
Qed.
Lemma bcd_round_u16 m v : v < 10000 -> bind (u16_to_bcd m v) (u16_from_bcd m) = Ok v.
Proof.
  intros H. rewrite u16_to_bcd_ok by assumption. cbn [bind].
  rewrite u16_from_bcd_spec by apply dec_nibs_4_lt. rewrite dec_nibs_ok, nib_dec.
  change (10 ^ N.of_nat 4) with 10000. rewrite N.mod_small by assumption. destruct m; reflexivity.
Qed.
Lemma dec_nibs_8_lt v : dec_nibs 8 v < 4294967296.
Proof. rewrite dec_nibs_8. pose proof (dec_nibs_4_lt (v / 10000)). pose proof (dec_nibs_4_lt (v mod 10000)). lia. Qed.
Lemma bcd_round_u32 m v : v < 100000000 -> bind (u32_to_bcd m v) (u32_from_bcd m) = Ok v.
Proof.
  intros H. rewrite u32_to_bcd_ok by assumption. cbn [bind].
  rewrite u32_from_bcd_spec by apply dec_nibs_8_lt. rewrite dec_nibs_ok, nib_dec.
  change (10 ^ N.of_nat 8) with 100000000. rewrite N.mod_small by assumption. destruct m; reflexivity.
Qed.
(** the other way round: from_bcd then to_bcd is the identity on well-formed BCD *)
Lemma bcd_back_u8 m v : v < 256 -> nibs_ok 2 v = true -> bind (u8_from_bcd m v) (u8_to_bcd m) = Ok v.
Proof.
  intros H Hn. rewrite u8_from_bcd_spec by assumption. rewrite Hn.
  pose proof (nib_value_ok_lt 2 v Hn) as L. change (10 ^ N.of_nat 2) with 100 in L.
  assert (E : u8_to_bcd m (nib_value 2 v) = Ok v).
  { rewrite u8_to_bcd_spec by lia. destruct (N.ltb_spec (nib_value 2 v) 100); [|lia].
    rewrite dec_nib by assumption. change (16 ^ N.of_nat 2) with 256. rewrite N.mod_small by assumption. reflexivity. }
  destruct m; exact E.
Qed.
Lemma bcd_back_u16 m v : v < 65536 -> nibs_ok 4 v = true -> bind (u16_from_bcd m v) (u16_to_bcd m) = Ok v.
Proof.
  intros H Hn. rewrite u16_from_bcd_spec by assumption. rewrite Hn.
  pose proof (nib_value_ok_lt 4 v Hn) as L. change (10 ^ N.of_nat 4) with 10000 in L.
  assert (E : u16_to_bcd m (nib_value 4 v) = Ok v).
  { rewrite u16_to_bcd_ok by assumption.
    rewrite dec_nib by assumption. change (16 ^ N.of_nat 4) with 65536. rewrite N.mod_small by assumption. reflexivity. }
  destruct m; exact E.
Qed.
Lemma bcd_back_u32 m v : v < 4294967296 -> nibs_ok 8 v = true -> bind (u32_from_bcd m v) (u32_to_bcd m) = Ok v.
Proof.
  intros H Hn. rewrite u32_from_bcd_spec by assumption. rewrite Hn.
  pose proof (nib_value_ok_lt 8 v Hn) as L. change (10 ^ N.of_nat 8) with 100000000 in L.
  assert (E : u32_to_bcd m (nib_value 8 v) = Ok v).
  { rewrite u32_to_bcd_ok by assumption.
    rewrite dec_nib by assumption. change (16 ^ N.of_nat 8) with 4294967296. rewrite N.mod_small by assumption. reflexivity. }
  destruct m; exact E.
Qed.

(** ** BCD time *)
Lemma u32_to_bcd_time_spec m v : v < 4294967296 ->
  u32_to_bcd_time m v = Ok (hms (v / 3600 mod 24) (v / 60 mod 60) (v mod 60)).
Proof.
  intros H. unfold u32_to_bcd_time, cast, U8, hms.
  assert (Hh : v / 3600 mod 24 < 24) by (apply N.mod_lt; discriminate).
  assert (Hm : v / 60 mod 60 < 60) by (apply N.mod_lt; discriminate).
  assert (Hs : v mod 60 < 60) by (apply N.mod_lt; discriminate).
  revert Hh Hm Hs. generalize (v / 3600 mod 24) (v / 60 mod 60) (v mod 60). intros h mi s Hh Hm Hs.
  rewrite !N.mod_small by lia.
  rewrite !u8_to_bcd_spec by lia.
  destruct (N.ltb_spec h 100), (N.ltb_spec mi 100), (N.ltb_spec s 100); try lia. cbn [bind].
  pose proof (dec_nibs_2_lt h). pose proof (dec_nibs_2_lt mi). pose proof (dec_nibs_2_lt s).
  rewrite !shlw_small by (unfold U32; change (2 ^ 16) with 65536; change (2 ^ 8) with 256; lia).
  change (2 ^ 16) with 65536; change (2 ^ 8) with 256.
  rewrite addw_ok by (unfold U32; lia). cbn [bind]. rewrite addw_ok by (unfold U32; lia). reflexivity.
Qed.

Lemma nibs_ok_6 v : nibs_ok 6 v = nibs_ok 2 (v / 65536) && nibs_ok 4 (v mod 65536).
Proof. rewrite (nibs_ok_app 2 4). change 65536 with (16 ^ N.of_nat 4). rewrite nibs_ok_mod. reflexivity. Qed.

(** only the low 24 bits are read; any nibble pattern is accepted in release builds *)
Lemma u32_from_bcd_time_spec m v : v < 4294967296 ->
  u32_from_bcd_time m v =
    let t := 3600 * nib_value 2 (v / 65536) + 60 * nib_value 2 (v / 256) + nib_value 2 v in
    match m with
    | Debug => if nibs_ok 6 v then Ok t else Panic
    | Release => Ok t
    end.
Proof.
  intros H. unfold u32_from_bcd_time, cast, U8. rewrite !N.shiftr_div_pow2.
  change (2 ^ 16) with 65536; change (2 ^ 8) with 256.
  rewrite !u8_from_bcd_spec by dlia.
  assert (N2 : forall x, nib_value 2 (x mod 256) = nib_value 2 x) by (intros x; rewrite !nib_value2; dlia).
  assert (K2 : forall x, nibs_ok 2 (x mod 256) = nibs_ok 2 x).
  { intros x. rewrite !nibs_ok2. replace ((x mod 256) mod 16) with (x mod 16) by dlia.
    replace ((x mod 256 / 16) mod 16) with (x / 16 mod 16) by dlia. reflexivity. }
  rewrite !N2, !K2. rewrite nibs_ok_6, nibs_ok_4.
  assert (EK : nibs_ok 2 (v mod 65536 / 256) = nibs_ok 2 (v / 256)).
  { rewrite <- (K2 (v / 256)). f_equal. dlia. }
  assert (EK2 : nibs_ok 2 ((v mod 65536) mod 256) = nibs_ok 2 v).
  { rewrite <- (K2 v). f_equal. dlia. }
  rewrite EK, EK2.
  pose proof (nib_value_2_lt (v / 65536)). pose proof (nib_value_2_lt (v / 256)). pose proof (nib_value_2_lt v).
  cbv zeta.
  assert (R : bind (mulw U32 m (nib_value 2 (v / 65536)) 3600) (fun h =>
     bind (Ok (nib_value 2 (v / 256))) (fun mm =>
     bind (mulw U32 m mm 60) (fun mi =>
     bind (addw U32 m h mi) (fun hm =>
     bind (Ok (nib_value 2 v)) (fun s => addw U32 m hm s))))) =
     Ok (3600 * nib_value 2 (v / 65536) + 60 * nib_value 2 (v / 256) + nib_value 2 v)).
  { rewrite mulw_ok by (unfold U32; lia). cbn [bind]. rewrite mulw_ok by (unfold U32; lia). cbn [bind].
    rewrite addw_ok by (unfold U32; lia). cbn [bind]. rewrite addw_ok by (unfold U32; lia). f_equal. lia. }
  destruct m; [|exact R].
  destruct (nibs_ok 2 (v / 65536)); [|reflexivity].
  destruct (nibs_ok 2 (v / 256)); [|cbn [bind]; rewrite mulw_ok by (unfold U32; lia); reflexivity].
  destruct (nibs_ok 2 v); [exact R|].
  cbn [bind]. rewrite mulw_ok by (unfold U32; lia). cbn [bind]. rewrite mulw_ok by (unfold U32; lia). cbn [bind].
  rewrite addw_ok by (unfold U32; lia). reflexivity.
Qed.

Lemma hms_lt h mi s : hms h mi s < 16777216.
Proof. unfold hms. pose proof (dec_nibs_2_lt h). pose proof (dec_nibs_2_lt mi). pose proof (dec_nibs_2_lt s). lia. Qed.

Lemma nib2_add a b : b < 256 -> nib_value 2 (256 * a + b) = nib_value 2 b.
Proof. intros H. rewrite !nib_value2. dlia. Qed.
Lemma nib2_dec v : v < 100 -> nib_value 2 (dec_nibs 2 v) = v.
Proof. intros H. rewrite nib_dec. apply N.mod_small. exact H. Qed.

Lemma from_hms m h mi s : h < 100 -> mi < 100 -> s < 100 ->
  u32_from_bcd_time m (hms h mi s) = Ok (3600 * h + 60 * mi + s).
Proof.
  intros Hh Hm Hs. pose proof (hms_lt h mi s).
  rewrite u32_from_bcd_time_spec by lia. cbv zeta.
  pose proof (dec_nibs_2_lt h). pose proof (dec_nibs_2_lt mi). pose proof (dec_nibs_2_lt s).
  assert (E1 : hms h mi s / 65536 = dec_nibs 2 h) by (unfold hms; dlia).
  assert (E2 : hms h mi s / 256 = 256 * dec_nibs 2 h + dec_nibs 2 mi) by (unfold hms; dlia).
  assert (E3 : hms h mi s = 256 * (256 * dec_nibs 2 h + dec_nibs 2 mi) + dec_nibs 2 s) by (unfold hms; lia).
  assert (E4 : nib_value 2 (hms h mi s) = s) by (rewrite E3, nib2_add by lia; apply nib2_dec; assumption).
  rewrite E1, E2, E4. rewrite !nib2_add by lia. rewrite !nib2_dec by assumption.
  assert (K : nibs_ok 6 (hms h mi s) = true).
  { rewrite nibs_ok_6, nibs_ok_4, E1, dec_nibs_ok. cbn [andb].
    replace (hms h mi s mod 65536 / 256) with (dec_nibs 2 mi) by (unfold hms; dlia).
    replace ((hms h mi s mod 65536) mod 256) with (dec_nibs 2 s) by (unfold hms; dlia).
    rewrite !dec_nibs_ok. reflexivity. }
  rewrite K. destruct m; reflexivity.
Qed.

(** seconds of a day survive; longer durations lose their whole days *)
Lemma bcd_time_round m v : v < 4294967296 ->
  bind (u32_to_bcd_time m v) (u32_from_bcd_time m) = Ok (v mod 86400).
Proof.
  intros H. rewrite u32_to_bcd_time_spec by assumption. cbn [bind].
  rewrite from_hms by dlia. f_equal. dlia.
Qed.

Lemma u16_to_bcd_time_spec m v : v < 65536 ->
  u16_to_bcd_time m v = Ok (hm (v / 60 mod 24) (v mod 60)).
Proof.
  intros H. unfold u16_to_bcd_time, cast, U8, hm.
  assert (Hh : v / 60 mod 24 < 24) by (apply N.mod_lt; discriminate).
  assert (Hm : v mod 60 < 60) by (apply N.mod_lt; discriminate).
  rewrite (N.mod_small (v / 60 mod 24)) by lia. rewrite (N.mod_small (v mod 60)) by lia.
  rewrite !u8_to_bcd_spec by lia.
  destruct (N.ltb_spec (v / 60 mod 24) 100), (N.ltb_spec (v mod 60) 100); try lia. cbn [bind].
  pose proof (dec_nibs_2_lt (v / 60 mod 24)). pose proof (dec_nibs_2_lt (v mod 60)).
  rewrite shl8_add by lia. f_equal. lia.
Qed.

Lemma u16_from_bcd_time_hm m h mi : h < 100 -> mi < 100 ->
  u16_from_bcd_time m (hm h mi) =
    if h <? 5 then Ok (60 * h + mi)
    else match m with Debug => Panic | Release => Ok ((60 * h) mod 256 + mi) end.
Proof.
  intros Hh Hm. unfold u16_from_bcd_time, cast, U8. rewrite N.shiftr_div_pow2. change (2 ^ 8) with 256.
  pose proof (dec_nibs_2_lt h). pose proof (dec_nibs_2_lt mi).
  replace ((hm h mi / 256) mod 256) with (dec_nibs 2 h) by (unfold hm; dlia).
  replace (hm h mi mod 256) with (dec_nibs 2 mi) by (unfold hm; dlia).
  rewrite !u8_from_bcd_spec by lia. rewrite !dec_nibs_ok, !nib2_dec by assumption.
  assert (E : forall x : N, match m with Debug => Ok x | Release => Ok x end = Ok x) by (destruct m; reflexivity).
  rewrite !E. cbn [bind]. unfold mulw. destruct (N.ltb_spec h 5).
  - destruct (N.ltb_spec (h * 60) 256); [|lia]. cbn [bind]. rewrite addw_ok by (unfold U16; lia). f_equal. lia.
  - destruct (N.ltb_spec (h * 60) 256); [lia|]. destruct m; [reflexivity|]. cbn [bind].
    rewrite addw_ok by (unfold U16; dlia). f_equal. f_equal. f_equal. lia.
Qed.

Lemma bcd_time_round_u16 m v : v < 300 -> bind (u16_to_bcd_time m v) (u16_from_bcd_time m) = Ok v.
Proof.
  intros H. rewrite u16_to_bcd_time_spec by lia. cbn [bind].
  rewrite u16_from_bcd_time_hm by dlia.
  replace (v / 60 mod 24 <? 5) with true by (symmetry; apply N.ltb_lt; dlia). f_equal. dlia.
Qed.
Lemma bcd_time_u16_broken v : 300 <= v < 1440 ->
  bind (u16_to_bcd_time Debug v) (u16_from_bcd_time Debug) = Panic /\
  exists x, bind (u16_to_bcd_time Release v) (u16_from_bcd_time Release) = Ok x /\ x <> v.
Proof.
  intros H. rewrite !u16_to_bcd_time_spec by lia. cbn [bind].
  rewrite !u16_from_bcd_time_hm by dlia.
  replace (v / 60 mod 24 <? 5) with false by (symmetry; apply N.ltb_ge; dlia).
  split; [reflexivity|]. eexists. split; [reflexivity|]. dlia.
Qed.

(** ** MJD *)
Lemma to_mjd_spec m t : t < U64 -> to_mjd m t = Ok ((t / 86400 + 40587) mod 65536).
Proof. intros H. unfold to_mjd. unfold U64 in H. rewrite addw_ok by (unfold U64; dlia). reflexivity. Qed.
Lemma from_mjd_spec m v : v < 65536 ->
  from_mjd m v = if 40587 <=? v then Ok ((v - 40587) * 86400)
                 else match m with Debug => Panic | Release => Ok ((2 ^ 64 + v - 40587) * 86400 mod 2 ^ 64) end.
Proof.
  intros H. unfold from_mjd. destruct (N.leb_spec 40587 v).
  - replace (dassert m true) with (@Ok unit tt) by (destruct m; reflexivity). cbn [bind].
    rewrite subw_ok by assumption. cbn [bind]. apply mulw_ok. unfold U64. lia.
  - destruct m; [reflexivity|]. cbn [dassert bind]. unfold subw. destruct (N.leb_spec 40587 v); [lia|]. cbn [bind].
    change (2 ^ 64) with U64. unfold mulw. destruct (N.ltb_spec ((U64 + v - 40587) * 86400) U64); [unfold U64 in *; lia|reflexivity].
Qed.

Lemma mjd_midnight m t : t < MJD_END -> bind (to_mjd m t) (from_mjd m) = Ok (t - t mod 86400).
Proof.
  unfold MJD_END. intros H. rewrite to_mjd_spec by (unfold U64; lia). cbn [bind].
  rewrite N.mod_small by dlia. rewrite from_mjd_spec by dlia.
  destruct (N.leb_spec 40587 (t / 86400 + 40587)); [|lia]. f_equal. dlia.
Qed.
Lemma mjd_back m v : 40587 <= v < 65536 -> bind (from_mjd m v) (to_mjd m) = Ok v.
Proof.
  intros H. rewrite from_mjd_spec by lia. destruct (N.leb_spec 40587 v); [|lia]. cbn [bind].
  rewrite to_mjd_spec by (unfold U64; lia). f_equal. dlia.
Qed.
(** the date-time pair used by TDT, TOT, EIT and descriptor 0x58 *)
Lemma datetime_round m t : t < MJD_END ->
  bind (to_mjd m t) (fun d => bind (u32_to_bcd_time m (cast U32 t)) (fun c =>
  bind (from_mjd m d) (fun a => bind (u32_from_bcd_time m c) (fun b => addw U64 m a b)))) = Ok t.
Proof.
  intros H. pose proof (mjd_midnight m t H) as M.
  rewrite to_mjd_spec in * by (unfold MJD_END, U64 in *; lia). cbn [bind] in *.
  unfold cast. rewrite (N.mod_small t) by (unfold MJD_END, U32 in *; lia).
  pose proof (bcd_time_round m t ltac:(unfold MJD_END in *; lia)) as B.
  rewrite u32_to_bcd_time_spec in * by (unfold MJD_END in *; lia). cbn [bind] in *.
  rewrite M, B. cbn [bind]. rewrite addw_ok.
  - f_equal. dlia.
  - unfold MJD_END, U64 in *. dlia.
Qed.

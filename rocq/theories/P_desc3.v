(** Proofs about parsing descriptors, continued: records with loops and texts. *)
From Verif Require Import Prelude Layout Facts Facts2 S_utils S_text M_bytes M_utils M_text M_desc S_desc P_bytes P_utils P_text2 P_desc P_desc2.

Lemma groups_S k n l : groups k (S n) l = firstn k l :: groups k n (skipn k l).
Proof. reflexivity. Qed.
Lemma split_at {A} k (l : list A) : (k <= length l)%nat -> exists g r, l = g ++ r /\ length g = k.
Proof. intros H. exists (firstn k l), (skipn k l). rewrite firstn_skipn, firstn_length. split; [reflexivity|lia]. Qed.
Lemma groups_app k n g r : length g = k -> groups k (S n) (g ++ r) = g :: groups k n r.
Proof.
  intros <-. rewrite groups_S. rewrite firstn_app, Nat.sub_diag, firstn_O, app_nil_r, firstn_all.
  rewrite skipn_app, Nat.sub_diag, skipn_all. reflexivity.
Qed.

Lemma slice_val {A} (l : list A) i j : (i <= j <= length l)%nat -> slice l i j = Ok (firstn (j - i) (skipn i l)).
Proof. intros H. unfold slice. destruct (Nat.leb_spec i j); [|lia]. destruct (Nat.leb_spec j (length l)); [|lia]. reflexivity. Qed.
Lemma field_pre g r off w : (off + w <= 8 * length g)%nat -> field (g ++ r) off w = field g off w.
Proof. apply field_prefix. Qed.

Lemma loop_41 : forall n pre l fuel, bytes (pre ++ l) -> length l = (3 * n)%nat -> (n < fuel)%nat ->
  x41_loop fuel (pre ++ l) (length pre) = Ok (map read_41 (groups 3 n l)).
Proof.
  induction n as [|n IH]; intros pre l fuel Hb Hl Hf; destruct fuel as [|fuel]; try lia; cbn [x41_loop]; rewrite app_length.
  - destruct (Nat.ltb_spec (length pre) (length pre + length l)); [lia|]. reflexivity.
  - destruct (Nat.ltb_spec (length pre) (length pre + length l)); [|lia].
    destruct (split_at 3 l ltac:(lia)) as (g & r & -> & Hg). rewrite app_length in Hl.
    apply bytes_app in Hb as Hb2. destruct Hb2 as [_ Hb2].
    rewrite u16_at0, get_at. rewrite get_u16_field by (rewrite ?app_length; (assumption || lia)).
    rewrite get_field by (rewrite ?app_length; (assumption || lia)). cbn [bind].
    rewrite app_assoc. replace (length pre + 3)%nat with (length (pre ++ g)) by (rewrite app_length; lia).
    rewrite IH; [|rewrite <- app_assoc; assumption|lia|lia]. cbn [bind].
    rewrite groups_app by assumption. cbn [map]. do 2 f_equal. unfold read_41. f_equal; apply field_pre; lia.
Qed.

Lemma loop_83 : forall n pre l fuel, bytes (pre ++ l) -> length l = (4 * n)%nat -> (n < fuel)%nat ->
  x83_loop fuel (pre ++ l) (length pre) = Ok (map read_83 (groups 4 n l)).
Proof.
  induction n as [|n IH]; intros pre l fuel Hb Hl Hf; destruct fuel as [|fuel]; try lia; cbn [x83_loop]; rewrite app_length.
  - destruct (Nat.leb_spec (length pre + 4) (length pre + length l)); [lia|]. reflexivity.
  - destruct (Nat.leb_spec (length pre + 4) (length pre + length l)); [|lia].
    destruct (split_at 4 l ltac:(lia)) as (g & r & -> & Hg). rewrite app_length in Hl.
    apply bytes_app in Hb as Hb2. destruct Hb2 as [_ Hb2]. apply bytes_app in Hb2 as Hb3. destruct Hb3 as [Hg' _].
    rewrite u16_at0, get_at, u16_at. rewrite !get_u16_field by (rewrite ?app_length; (assumption || lia)).
    rewrite get_field by (rewrite ?app_length; (assumption || lia)). cbn [bind].
    rewrite app_assoc. replace (length pre + 4)%nat with (length (pre ++ g)) by (rewrite app_length; lia).
    rewrite IH; [|rewrite <- app_assoc; assumption|lia|lia]. cbn [bind].
    rewrite groups_app by assumption. cbn [map]. do 2 f_equal. unfold read_83.
    rewrite !field_pre by lia. f_equal.
    + apply (byte_high g 2 1 7); (assumption || lia).
    + rewrite (land_mask _ 10) by reflexivity. symmetry. apply (field_low g 16 6 10). lia.
Qed.

Lemma loop_0A m : forall n pre l fuel, bytes (pre ++ l) -> length l = (4 * n)%nat -> (n < fuel)%nat ->
  x0A_loop fuel m (pre ++ l) (length pre) = Ok (map read_0A (groups 4 n l)).
Proof.
  induction n as [|n IH]; intros pre l fuel Hb Hl Hf; destruct fuel as [|fuel]; try lia; cbn [x0A_loop]; rewrite app_length.
  - destruct (Nat.ltb_spec (length pre) (length pre + length l)); [lia|]. reflexivity.
  - destruct (Nat.ltb_spec (length pre) (length pre + length l)); [|lia].
    destruct (split_at 4 l ltac:(lia)) as (g & r & -> & Hg). rewrite app_length in Hl.
    apply bytes_app in Hb as Hb2. destruct Hb2 as [_ Hb2].
    rewrite slice_at0, get_at. rewrite slice_val by (rewrite ?app_length; lia).
    rewrite get_field by (rewrite ?app_length; (assumption || lia)). cbn [bind]. rewrite from_text. cbn [bind].
    rewrite app_assoc. replace (length pre + 4)%nat with (length (pre ++ g)) by (rewrite app_length; lia).
    rewrite IH; [|rewrite <- app_assoc; assumption|lia|lia]. cbn [bind].
    rewrite groups_app by assumption. cbn [map]. do 2 f_equal. unfold read_0A. f_equal; [|apply field_pre; lia].
    f_equal. cbn [skipn Nat.sub]. rewrite firstn_app. replace (3 - length g)%nat with 0%nat by lia. rewrite firstn_O, app_nil_r. reflexivity.
Qed.

Lemma len_div_k k n l : (k <> 0)%nat -> (length l mod k = 0)%nat -> n = (length l / k)%nat -> @length N l = (k * n)%nat.
Proof. intros Hk H ->. pose proof (Nat.div_mod (length l) k Hk). lia. Qed.

Lemma two_tlv t b : tlv t b = [t; N.of_nat (length b)] ++ b.
Proof. reflexivity. Qed.

Lemma out_41 m b : bytes b -> (length b < 256)%nat -> outcome m 0x41 b (desc_parse m (tlv 0x41 b)).
Proof.
  intros Hb Hl. left. change (desc_parse m (tlv 65 b)) with (arm (x41_check (tlv 65 b)) x41_parse D41 (tlv 65 b)).
  unfold arm, x41_check. rewrite tlv_length. replace (2 + length b - 2)%nat with (length b) by lia.
  destruct (Nat.leb_spec 2 (2 + length b)); [|lia]. cbn [andb]. destruct (Nat.eqb_spec (length b mod 3) 0) as [E|E].
  - eexists. split; [apply r41; assumption|]. unfold x41_parse.
    pose proof (tlv_bytes 65 b ltac:(lia) Hl Hb) as Hs. rewrite tlv_length. rewrite two_tlv in *.
    rewrite (loop_41 (length b / 3) [65; N.of_nat (length b)] b); [reflexivity|assumption|apply len_div_k; lia|].
    pose proof (Nat.div_le_upper_bound (length b) 3 (length b)). lia.
  - eexists. split; [apply r41'; assumption|]. apply parse_raw_ok. assumption.
Qed.
Lemma out_83 m b : bytes b -> (length b < 256)%nat -> outcome m 0x83 b (desc_parse m (tlv 0x83 b)).
Proof.
  intros Hb Hl. left. change (desc_parse m (tlv 131 b)) with (arm (x83_check (tlv 131 b)) x83_parse D83 (tlv 131 b)).
  unfold arm, x83_check. rewrite tlv_length. replace (2 + length b - 2)%nat with (length b) by lia.
  destruct (Nat.leb_spec 2 (2 + length b)); [|lia]. cbn [andb]. destruct (Nat.eqb_spec (length b mod 4) 0) as [E|E].
  - eexists. split; [apply r83; assumption|]. unfold x83_parse.
    pose proof (tlv_bytes 131 b ltac:(lia) Hl Hb) as Hs. rewrite tlv_length. rewrite two_tlv in *.
    rewrite (loop_83 (length b / 4) [131; N.of_nat (length b)] b); [reflexivity|assumption|apply len_div_k; lia|].
    pose proof (Nat.div_le_upper_bound (length b) 4 (length b)). lia.
  - eexists. split; [apply r83'; assumption|]. apply parse_raw_ok. assumption.
Qed.
Lemma out_0A m b : bytes b -> (length b < 256)%nat -> outcome m 0x0A b (desc_parse m (tlv 0x0A b)).
Proof.
  intros Hb Hl. left. change (desc_parse m (tlv 10 b)) with (arm (x0A_check (tlv 10 b)) (x0A_parse m) D0A (tlv 10 b)).
  unfold arm, x0A_check. rewrite tlv_length. replace (2 + length b - 2)%nat with (length b) by lia.
  destruct (Nat.leb_spec 2 (2 + length b)); [|lia]. cbn [andb]. destruct (Nat.eqb_spec (length b mod 4) 0) as [E|E].
  - eexists. split; [apply r0A; assumption|]. unfold x0A_parse.
    pose proof (tlv_bytes 10 b ltac:(lia) Hl Hb) as Hs. rewrite tlv_length. rewrite two_tlv in *.
    rewrite (loop_0A m (length b / 4) [10; N.of_nat (length b)] b); [reflexivity|assumption|apply len_div_k; lia|].
    pose proof (Nat.div_le_upper_bound (length b) 4 (length b)). lia.
  - eexists. split; [apply r0A'; assumption|]. apply parse_raw_ok. assumption.
Qed.

(** ** local time offset *)
Lemma nib2_mod v : nib_value 2 (v mod 256) = nib_value 2 v.
Proof. change 256 with (16 ^ N.of_nat 2). apply nib_value_mod. Qed.
Lemma nibok2_mod v : nibs_ok 2 (v mod 256) = nibs_ok 2 v.
Proof. change 256 with (16 ^ N.of_nat 2). apply nibs_ok_mod. Qed.

Lemma u16_time_spec m v : v < 65536 ->
  u16_from_bcd_time m v =
    match m with
    | Debug => if nibs_ok 4 v && (nib_value 2 (v / 256) <? 5) then Ok (minutes v) else Panic
    | Release => Ok ((60 * nib_value 2 (v / 256)) mod 256 + nib_value 2 v)
    end.
Proof.
  intros H. unfold u16_from_bcd_time, cast, U8. rewrite shr_div. change (2 ^ 8) with 256.
  rewrite (N.mod_small (v / 256)) by (apply N.div_lt_upper_bound; lia).
  rewrite !u8_from_bcd_spec; [|apply N.mod_lt; lia|apply N.div_lt_upper_bound; lia].
  rewrite nib2_mod, nibok2_mod, nibs_ok_4, nibok2_mod. unfold minutes.
  pose proof (nib_value_2_lt (v / 256)) as V1. pose proof (nib_value_2_lt v) as V2.
  destruct m.
  - destruct (nibs_ok 2 (v / 256)) eqn:N1; cbn [andb bind]; [|reflexivity].
    unfold mulw at 1. destruct (N.ltb_spec (nib_value 2 (v / 256) * 60) 256).
    + destruct (N.ltb_spec (nib_value 2 (v / 256)) 5); [|lia]. rewrite andb_true_r.
      destruct (nibs_ok 2 v); cbn [bind]; [|reflexivity]. unfold addw.
      destruct (N.ltb_spec (nib_value 2 (v / 256) * 60 + nib_value 2 v) U16); [f_equal; lia|unfold U16 in *; lia].
    + destruct (N.ltb_spec (nib_value 2 (v / 256)) 5); [lia|]. rewrite andb_false_r. reflexivity.
  - cbn [bind]. unfold mulw at 1. rewrite (N.mul_comm _ 60). destruct (N.ltb_spec (60 * nib_value 2 (v / 256)) 256).
    + cbn [bind]. rewrite N.mod_small by assumption. unfold addw.
      destruct (N.ltb_spec (60 * nib_value 2 (v / 256) + nib_value 2 v) U16); [reflexivity|unfold U16 in *; lia].
    + cbn [bind]. unfold addw. pose proof (N.mod_lt (60 * nib_value 2 (v / 256)) 256 ltac:(lia)).
      destruct (N.ltb_spec ((60 * nib_value 2 (v / 256)) mod 256 + nib_value 2 v) U16); [reflexivity|unfold U16 in *; lia].
Qed.

Definition good58 (g : list N) : Prop :=
  nibs_ok 4 (field g 32 16) = true /\ nib_value 2 (field g 32 8) < 5 /\ MJD_EPOCH <= field g 48 16 /\
  nibs_ok 6 (field g 64 24) = true /\ nibs_ok 4 (field g 88 16) = true /\ nib_value 2 (field g 88 8) < 5.
Lemma good58_dec g : good58 g \/ ~ good58 g.
Proof.
  unfold good58.
  destruct (nibs_ok 4 (field g 32 16)); [|right; intros [H _]; discriminate].
  destruct (N.ltb_spec (nib_value 2 (field g 32 8)) 5) as [X|X]; [|right; intros (_ & H & _); lia].
  destruct (N.leb_spec MJD_EPOCH (field g 48 16)) as [Y|Y]; [|right; intros (_ & _ & H & _); lia].
  destruct (nibs_ok 6 (field g 64 24)); [|right; intros (_ & _ & _ & H & _); discriminate].
  destruct (nibs_ok 4 (field g 88 16)); [|right; intros (_ & _ & _ & _ & H & _); discriminate].
  destruct (N.ltb_spec (nib_value 2 (field g 88 8)) 5) as [Z|Z]; [|right; intros (_ & _ & _ & _ & _ & H); lia].
  left. repeat split; assumption.
Qed.

Definition grp58 (m : mode) (g : list N) : res d_58i :=
  o <- u16_from_bcd_time m (field g 32 16) ;;
  d <- from_mjd m (field g 48 16) ;;
  t <- u32_from_bcd_time m (field g 64 24) ;;
  time <- addw U64 m d t ;;
  n <- u16_from_bcd_time m (field g 88 16) ;;
  Ok (mk58i (text_read (firstn 3 g)) (field g 24 6) (field g 31 1) o time n).

Lemma step58 m fuel pre g r : bytes (pre ++ g ++ r) -> length g = 13%nat ->
  x58_loop (S fuel) m (pre ++ g ++ r) (length pre) =
  (i <- grp58 m g ;; rest <- x58_loop fuel m ((pre ++ g) ++ r) (length (pre ++ g)) ;; Ok (i :: rest)).
Proof.
  intros Hb Hg. cbn [x58_loop]. rewrite !app_length.
  destruct (Nat.ltb_spec (length pre) (length pre + (length g + length r))); [|lia].
  apply bytes_app in Hb as Hb2. destruct Hb2 as [_ Hb2]. apply bytes_app in Hb2 as Hb3. destruct Hb3 as [Hg' _].
  rewrite slice_at0, get_at, !u16_at, u24_at. rewrite slice_val by (rewrite ?app_length; lia).
  rewrite get_field by (rewrite ?app_length; (assumption || lia)).
  rewrite !get_u16_field by (rewrite ?app_length; (assumption || lia)).
  rewrite !get_u24_field by (rewrite ?app_length; (assumption || lia)).
  cbn [bind]. rewrite from_text. cbn [bind]. rewrite !field_pre by lia. cbn [skipn Nat.sub].
  rewrite firstn_app. replace (3 - length g)%nat with 0%nat by lia. rewrite firstn_O, app_nil_r.
  unfold grp58. cbn [Nat.mul Nat.add].
  replace (N.shiftr (field g 24 8) 2) with (field g 24 6) by (symmetry; apply (byte_high g 3 6 2); (assumption || lia)).
  replace (N.land (field g 24 8) 1) with (field g 31 1) by (symmetry; apply (byte_low g 3 7 1); (assumption || lia || reflexivity)).
  rewrite <- app_assoc. replace (length pre + length g)%nat with (length pre + 13)%nat by lia.
  repeat lazymatch goal with
  | |- (x <- ?e ;; _) = (i <- (y <- ?e ;; _) ;; _) => destruct e; cbn [bind]; [|reflexivity|reflexivity]
  end. reflexivity.
Qed.

Lemma grp58_cases m g : length g = 13%nat ->
  (good58 g -> grp58 m g = Ok (read_58 g)) /\
  (~ good58 g -> match m with Debug => grp58 m g = Panic | Release => exists i, grp58 m g = Ok i end).
Proof.
  intros Hg. unfold good58, grp58, read_58, MJD_EPOCH.
  rewrite (field_high g 32 8 8), (field_high g 88 8 8) by lia.
  change (8 + 8)%nat with 16%nat. change (2 ^ N.of_nat 8) with 256.
  pose proof (field_lt g 32 16) as L1. pose proof (field_lt g 48 16) as L2. pose proof (field_lt g 88 16) as L3.
  pose proof (field_lt g 64 24) as L4.
  change (2 ^ N.of_nat 16) with 65536 in L1, L2, L3. change (2 ^ N.of_nat 24) with 16777216 in L4.
  generalize dependent (field g 32 16). intros o L1. generalize dependent (field g 48 16). intros d L2.
  generalize dependent (field g 88 16). intros n L3. generalize dependent (field g 64 24). intros t L4.
  rewrite !u16_time_spec by assumption. rewrite from_mjd_spec by assumption. rewrite u32_from_bcd_time_spec by lia. cbv zeta.
  fold (seconds t).
  assert (LT : seconds t < 1000000).
  { unfold seconds. pose proof (nib_value_2_lt (t / 65536)). pose proof (nib_value_2_lt (t / 256)). pose proof (nib_value_2_lt t). lia. }
  split.
  - intros (H1 & H2 & H3 & H4 & H5 & H6). destruct (N.leb_spec 40587 d); [|lia].
    assert (A : addw U64 m ((d - 40587) * 86400) (seconds t) = Ok ((d - 40587) * 86400 + seconds t)).
    { unfold addw. destruct (N.ltb_spec ((d - 40587) * 86400 + seconds t) U64); [reflexivity|]. unfold U64 in *. lia. }
    destruct m.
    + rewrite H1, H4, H5. apply N.ltb_lt in H2, H6. rewrite H2, H6. cbn [andb bind]. rewrite A. reflexivity.
    + cbn [bind]. rewrite A. cbn [bind]. rewrite !N.mod_small by lia. reflexivity.
  - intros NG. destruct m.
    + destruct (nibs_ok 4 o); cbn [andb]; [|reflexivity].
      destruct (N.ltb_spec (nib_value 2 (o / 256)) 5); [|reflexivity]. cbn [bind].
      destruct (N.leb_spec 40587 d); [|reflexivity]. cbn [bind].
      destruct (nibs_ok 6 t); [|reflexivity]. cbn [bind].
      assert (A : addw U64 Debug ((d - 40587) * 86400) (seconds t) = Ok ((d - 40587) * 86400 + seconds t)).
      { unfold addw. destruct (N.ltb_spec ((d - 40587) * 86400 + seconds t) U64); [reflexivity|]. unfold U64 in *. lia. }
      rewrite A. cbn [bind].
      destruct (nibs_ok 4 n); cbn [andb]; [|reflexivity].
      destruct (N.ltb_spec (nib_value 2 (n / 256)) 5); [|reflexivity].
      exfalso. apply NG. repeat split; assumption.
    + cbn [bind]. destruct (40587 <=? d); cbn [bind]; unfold addw;
        (destruct (_ <? U64); cbn [bind]; eexists; reflexivity).
Qed.

Lemma groups_dec58 n : forall l, Forall good58 (groups 13 n l) \/ ~ Forall good58 (groups 13 n l).
Proof.
  induction n as [|n IH]; intros l; [left; constructor|]. rewrite groups_S.
  destruct (good58_dec (firstn 13 l)) as [D|D]; [|right; intros F; inversion F; auto].
  destruct (IH (skipn 13 l)) as [F|F]; [left; constructor; assumption|right; intros Q; inversion Q; auto].
Qed.

Lemma loop_58 m : forall n pre l fuel, bytes (pre ++ l) -> length l = (13 * n)%nat -> (n < fuel)%nat ->
  (Forall good58 (groups 13 n l) -> x58_loop fuel m (pre ++ l) (length pre) = Ok (map read_58 (groups 13 n l))) /\
  (~ Forall good58 (groups 13 n l) ->
   match m with Debug => x58_loop fuel m (pre ++ l) (length pre) = Panic | Release => exists i, x58_loop fuel m (pre ++ l) (length pre) = Ok i end).
Proof.
  induction n as [|n IH]; intros pre l fuel Hb Hl Hf; destruct fuel as [|fuel]; try lia.
  - cbn [x58_loop groups]. rewrite app_length. destruct (Nat.ltb_spec (length pre) (length pre + length l)); [lia|].
    split; [reflexivity|]. intros H1. exfalso. apply H1. constructor.
  - destruct (split_at 13 l ltac:(lia)) as (g & r & -> & Hg). rewrite app_length in Hl.
    rewrite step58 by assumption. rewrite groups_app by assumption.
    destruct (IH (pre ++ g) r fuel) as [IH1 IH2]; [rewrite <- app_assoc; assumption|lia|lia|].
    destruct (grp58_cases m g Hg) as [G1 G2]. split.
    + intros F. inversion F as [|? ? F1 F2]; subst. rewrite (G1 F1), (IH1 F2). reflexivity.
    + intros F. destruct (good58_dec g) as [D|D].
      * assert (F2 : ~ Forall good58 (groups 13 n r)) by (intros F2; apply F; constructor; assumption).
        rewrite (G1 D). cbn [bind]. specialize (IH2 F2). destruct m; [rewrite IH2; reflexivity|].
        destruct IH2 as [i ->]. eexists; reflexivity.
      * specialize (G2 D). destruct m; [rewrite G2; reflexivity|]. destruct G2 as [i ->]. cbn [bind].
        pose proof (groups_dec58 n r) as Q.
        destruct Q as [Q|Q]; [rewrite (IH1 Q); eexists; reflexivity|]. destruct (IH2 Q) as [j ->]. eexists; reflexivity.
Qed.

Lemma out_58 m b : bytes b -> (length b < 256)%nat -> outcome m 0x58 b (desc_parse m (tlv 0x58 b)).
Proof.
  intros Hb Hl. change (desc_parse m (tlv 88 b)) with (arm (x58_check (tlv 88 b)) (x58_parse m) D58 (tlv 88 b)).
  unfold arm, x58_check. rewrite tlv_length. replace (2 + length b - 2)%nat with (length b) by lia.
  destruct (Nat.leb_spec 2 (2 + length b)); [|lia]. cbn [andb]. destruct (Nat.eqb_spec (length b mod 13) 0) as [E|E].
  2:{ left. eexists. split; [apply r58'; assumption|]. apply parse_raw_ok. assumption. }
  unfold x58_parse. pose proof (tlv_bytes 88 b ltac:(lia) Hl Hb) as Hs. rewrite tlv_length. rewrite two_tlv in *.
  destruct (loop_58 m (length b / 13) [88; N.of_nat (length b)] b (S (2 + length b))) as [G1 G2];
    [assumption|apply len_div_k; lia|pose proof (Nat.div_le_upper_bound (length b) 13 (length b)); lia|].
  change (length [88; N.of_nat (length b)]) with 2%nat in *.
  destruct (groups_dec58 (length b / 13) b) as [F|F].
  - left. rewrite (G1 F). eexists. split; [apply r58; assumption|reflexivity].
  - right. split; [|split].
    + intros d R. inversion R; subst; try lia; [contradiction|].
      match goal with H : ~ In _ _ |- _ => apply H; cbn; tauto end.
    + intros X. exfalso. revert X. no_oob.
    + intros _. specialize (G2 F). destruct m; [rewrite G2; reflexivity|]. destruct G2 as [i ->]. eexists; reflexivity.
Qed.

(** ** texts behind length bytes *)
Lemma get_tlv t b j : get (tlv t b) (2 + j) = if (j <? length b)%nat then Ok (nth j b 0) else Panic.
Proof.
  change (get (tlv t b) (2 + j)) with (get b j).
  destruct (Nat.ltb_spec j (length b)); [apply get_nth; assumption|apply get_panic; assumption].
Qed.
Lemma get_tlv0 t b : get (tlv t b) 0 = Ok t. Proof. reflexivity. Qed.
Lemma get_tlv1 t b : get (tlv t b) 1 = Ok (N.of_nat (length b)). Proof. reflexivity. Qed.
Lemma slice_tlv t b i j : slice (tlv t b) (2 + i) (2 + j) = slice b i j.
Proof. exact (slice_at [t; N.of_nat (length b)] b i j). Qed.
Lemma nth_field b i : bytes b -> (i < length b)%nat -> nth i b 0 = field b (8 * i) 8.
Proof. intros H Hi. pose proof (get_field b i H Hi) as G. rewrite (get_nth b i 0) in G by assumption. congruence. Qed.

Ltac no_raw := match goal with H : ~ In _ _ |- _ => exfalso; apply H; cbn; tauto end.

Lemma out_48 m b : bytes b -> (length b < 256)%nat -> outcome m 0x48 b (desc_parse m (tlv 0x48 b)).
Proof.
  intros Hb Hl. change (desc_parse m (tlv 72 b)) with (c <- x48_check (tlv 72 b) ;; arm c (x48_parse m) D48 (tlv 72 b)).
  unfold x48_check. rewrite tlv_length. destruct (Nat.ltb_spec (2 + length b) 5) as [E|E].
  { left. eexists. split; [apply r48'; lia|]. cbn [bind arm]. apply parse_raw_ok. assumption. }
  change (get (tlv 72 b) 3) with (get (tlv 72 b) (2 + 1)). rewrite get_tlv.
  destruct (Nat.ltb_spec 1 (length b)); [|lia]. cbn [bind]. fold (len_at b 1).
  replace (4 + len_at b 1)%nat with (2 + (2 + len_at b 1))%nat by lia. rewrite get_tlv.
  destruct (Nat.ltb_spec (2 + len_at b 1) (length b)) as [P|P].
  2:{ cbn [bind]. right. assert (O : oob 72 b) by (left; split; [reflexivity|lia]). split; [|split].
      - intros d R. inversion R; subst; try lia. no_raw.
      - reflexivity.
      - intros X. contradiction. }
  cbn [bind]. rewrite get_tlv1. cbn [bind]. fold (len_at b (2 + len_at b 1)). rewrite Nat2N.id.
  destruct (Nat.eqb_spec (length b) (5 - 2 + len_at b 1 + len_at b (2 + len_at b 1))) as [Q|Q].
  2:{ left. eexists. split; [apply r48'; lia|]. cbn [arm]. apply parse_raw_ok. assumption. }
  left. eexists. split; [apply r48; lia|]. cbn [arm]. unfold x48_parse.
  change (get (tlv 72 b) 3) with (get (tlv 72 b) (2 + 1)). change (get (tlv 72 b) 2) with (get (tlv 72 b) (2 + 0)). rewrite !get_tlv.
  destruct (Nat.ltb_spec 1 (length b)); [|lia]. cbn [bind]. cbv zeta. fold (len_at b 1).
  replace (4 + len_at b 1)%nat with (2 + (2 + len_at b 1))%nat by lia. rewrite get_tlv.
  destruct (Nat.ltb_spec (2 + len_at b 1) (length b)); [|lia]. cbn [bind]. fold (len_at b (2 + len_at b 1)).
  destruct (Nat.ltb_spec 0 (length b)); [|lia]. cbn [bind].
  change (slice (tlv 72 b) 4) with (slice (tlv 72 b) (2 + 2)). rewrite slice_tlv, slice_val by lia. cbn [bind].
  replace (2 + (2 + len_at b 1) + 1)%nat with (2 + (3 + len_at b 1))%nat by lia. rewrite <- Nat.add_assoc. rewrite slice_tlv, slice_val by lia.
  rewrite !from_text. cbn [bind]. rewrite !from_text. cbn [bind]. unfold text_at.
  rewrite nth_field by (assumption || lia). replace (2 + len_at b 1 - 2)%nat with (len_at b 1) by lia.
  replace (3 + len_at b 1 + len_at b (2 + len_at b 1) - (3 + len_at b 1))%nat with (len_at b (2 + len_at b 1)) by lia. reflexivity.
Qed.

Lemma out_4D m b : bytes b -> (length b < 256)%nat -> outcome m 0x4D b (desc_parse m (tlv 0x4D b)).
Proof.
  intros Hb Hl. change (desc_parse m (tlv 77 b)) with (c <- x4D_check (tlv 77 b) ;; arm c (x4D_parse m) D4D (tlv 77 b)).
  unfold x4D_check. rewrite tlv_length. destruct (Nat.ltb_spec (2 + length b) 7) as [E|E].
  { left. eexists. split; [apply r4D'; lia|]. cbn [bind arm]. apply parse_raw_ok. assumption. }
  change (get (tlv 77 b) 5) with (get (tlv 77 b) (2 + 3)). rewrite get_tlv.
  destruct (Nat.ltb_spec 3 (length b)); [|lia]. cbn [bind]. fold (len_at b 3).
  replace (6 + len_at b 3)%nat with (2 + (4 + len_at b 3))%nat by lia. rewrite get_tlv.
  destruct (Nat.ltb_spec (4 + len_at b 3) (length b)) as [P|P].
  2:{ cbn [bind]. right. assert (O : oob 77 b) by (right; left; split; [reflexivity|lia]). split; [|split].
      - intros d R. inversion R; subst; try lia. no_raw.
      - reflexivity.
      - intros X. contradiction. }
  cbn [bind]. rewrite get_tlv1. cbn [bind]. fold (len_at b (4 + len_at b 3)). rewrite Nat2N.id.
  destruct (Nat.eqb_spec (length b) (7 - 2 + len_at b 3 + len_at b (4 + len_at b 3))) as [Q|Q].
  2:{ left. eexists. split; [apply r4D'; lia|]. cbn [arm]. apply parse_raw_ok. assumption. }
  left. eexists. split; [apply r4D; lia|]. cbn [arm]. unfold x4D_parse.
  change (get (tlv 77 b) 5) with (get (tlv 77 b) (2 + 3)). rewrite !get_tlv.
  destruct (Nat.ltb_spec 3 (length b)); [|lia]. cbn [bind]. cbv zeta. fold (len_at b 3).
  replace (6 + len_at b 3)%nat with (2 + (4 + len_at b 3))%nat by lia. rewrite get_tlv.
  destruct (Nat.ltb_spec (4 + len_at b 3) (length b)); [|lia]. cbn [bind]. fold (len_at b (4 + len_at b 3)).
  change (slice (tlv 77 b) 2 5) with (slice (tlv 77 b) (2 + 0) (2 + 3)).
  change (slice (tlv 77 b) 6) with (slice (tlv 77 b) (2 + 4)). rewrite !slice_tlv, !slice_val by lia. cbn [bind].
  replace (2 + (4 + len_at b 3) + 1)%nat with (2 + (5 + len_at b 3))%nat by lia. rewrite <- Nat.add_assoc. rewrite slice_tlv, slice_val by lia.
  rewrite !from_text. cbn [bind]. rewrite !from_text. cbn [bind]. unfold text_at.
  replace (4 + len_at b 3 - 4)%nat with (len_at b 3) by lia.
  replace (5 + len_at b 3 + len_at b (4 + len_at b 3) - (5 + len_at b 3))%nat with (len_at b (4 + len_at b 3)) by lia. reflexivity.
Qed.

Lemma loop_4E_end fuel m s is ie : (ie <= is)%nat -> x4E_loop (S fuel) m s is ie = Ok [].
Proof. intros H. cbn [x4E_loop]. destruct (Nat.ltb_spec is ie); [lia|]. reflexivity. Qed.

Lemma items_head n a l1 items : items_read n (a :: l1) items -> (0 < n)%nat ->
  exists x y l its, a = N.of_nat (length x) /\ l1 = x ++ (N.of_nat (length y) :: y) ++ l /\
    items = (text_read x, text_read y) :: its /\ items_read (n - (2 + length x + length y)) l its.
Proof.
  intros R Hn. inversion R as [l0 E1 E2 E3|n0 x y l its R' Hn' E1 E2 E3]; [lia|].
  exists x, y, l, its. cbn [app] in E2. inversion E2; subst. repeat split; (reflexivity || assumption).
Qed.

Lemma app_inj_len {A} (a c : list A) : forall b d, length a = length c -> a ++ b = c ++ d -> a = c /\ b = d.
Proof.
  revert c. induction a as [|x a IH]; intros [|y c] b d H E; cbn in *; try discriminate; [auto|].
  inversion E; subst. destruct (IH c b d) as [-> ->]; [lia|assumption|auto].
Qed.

Lemma loop_4E m : forall fuel pre l n, (length l < fuel)%nat -> bytes l ->
  (exists items, items_read n l items /\ x4E_loop fuel m (pre ++ l) (length pre) (length pre + n) = Ok items) \/
  ((forall items, ~ items_read n l items) /\ x4E_loop fuel m (pre ++ l) (length pre) (length pre + n) = Panic).
Proof.
  induction fuel as [|fuel IH]; intros pre l n Hf Hb; [lia|].
  destruct n as [|n'].
  { left. exists []. split; [constructor|]. apply loop_4E_end. lia. }
  remember (S n') as n eqn:En. assert (Hn : (0 < n)%nat) by lia. clear En n'.
  cbn [x4E_loop]. destruct (Nat.ltb_spec (length pre) (length pre + n)); [|lia].
  rewrite get_at0. destruct l as [|a l1].
  { right. split; [|reflexivity]. intros items R. inversion R; lia. }
  change (get (a :: l1) 0) with (Ok a). cbn [bind]. cbv zeta. apply bytes_cons in Hb. destruct Hb as [Ha Hb1].
  rewrite <- Nat.add_assoc. rewrite get_at. change (get (a :: l1) (1 + N.to_nat a)) with (get l1 (N.to_nat a)).
  destruct (Nat.ltb_spec (N.to_nat a) (length l1)) as [P|P].
  2:{ right. rewrite get_panic by assumption. split; [|reflexivity]. intros items R. apply items_head in R; [|assumption].
      destruct R as (x & y & l & its & -> & -> & _). rewrite Nat2N.id, !app_length in P. cbn [length] in P. lia. }
  destruct (split_at (N.to_nat a) l1 ltac:(lia)) as (x & l2 & -> & Hx). rewrite app_length in P. destruct l2 as [|c l3]; [cbn in P; lia|].
  assert (a = N.of_nat (length x)) by lia. subst a. rewrite Nat2N.id in *. clear Hx.
  rewrite get_app_r by lia. rewrite Nat.sub_diag. change (get (c :: l3) 0) with (Ok c). cbn [bind].
  apply bytes_app in Hb1. destruct Hb1 as [_ Hb1]. apply bytes_cons in Hb1. destruct Hb1 as [_ Hb3].
  rewrite slice_at. replace (slice (N.of_nat (length x) :: x ++ c :: l3) 1 (1 + length x)) with (Ok x).
  2:{ rewrite slice_val by (cbn [length]; rewrite app_length; lia). replace (1 + length x - 1)%nat with (length x) by lia.
      cbn [skipn]. rewrite firstn_app, Nat.sub_diag, firstn_all, firstn_O, app_nil_r. reflexivity. }
  cbn [bind]. rewrite from_text. cbn [bind].
  destruct (Nat.leb_spec (N.to_nat c) (length l3)) as [P2|P2].
  2:{ right. split.
      - intros items R. apply items_head in R; [|assumption]. destruct R as (x' & y & l & its & E1 & E2 & _).
        apply app_inj_len in E2; [|lia]. destruct E2 as [_ E2]. cbn [app] in E2. inversion E2; subst.
        rewrite Nat2N.id, app_length in P2. lia.
      - unfold slice. rewrite app_length. cbn [length]. rewrite app_length. cbn [length].
        destruct (Nat.leb_spec (length pre + (1 + length x) + 1) (length pre + (1 + length x) + 1 + N.to_nat c)); [|lia].
        destruct (Nat.leb_spec (length pre + (1 + length x) + 1 + N.to_nat c) (length pre + S (length x + S (length l3)))); [lia|]. reflexivity. }
  destruct (split_at (N.to_nat c) l3 P2) as (y & l4 & -> & Hy). assert (c = N.of_nat (length y)) by lia. subst c.
  rewrite Nat2N.id in *. clear Hy P2.
  replace (pre ++ N.of_nat (length x) :: x ++ N.of_nat (length y) :: y ++ l4)
    with ((pre ++ (N.of_nat (length x) :: x) ++ [N.of_nat (length y)]) ++ y ++ l4).
  2:{ rewrite <- !app_assoc. reflexivity. }
  replace (length pre + (1 + length x) + 1)%nat with (length (pre ++ (N.of_nat (length x) :: x) ++ [N.of_nat (length y)])).
  2:{ rewrite !app_length. cbn [length]. lia. }
  remember (pre ++ (N.of_nat (length x) :: x) ++ [N.of_nat (length y)]) as pre2 eqn:Ep.
  rewrite slice_at0, slice_val by (rewrite app_length; lia). rewrite Nat.sub_0_r. cbn [skipn].
  rewrite firstn_app, Nat.sub_diag, firstn_all, firstn_O, app_nil_r. cbn [bind]. rewrite from_text. cbn [bind].
  assert (Lp : length pre2 = (length pre + (2 + length x))%nat). { subst pre2. rewrite !app_length. cbn [length]. lia. }
  cbn [length] in Hf. rewrite app_length in Hf. cbn [length] in Hf. rewrite app_length in Hf.
  apply bytes_app in Hb3. destruct Hb3 as [_ Hb4].
  assert (Ee : x4E_loop fuel m (pre2 ++ y ++ l4) (length pre2 + length y) (length pre + n) =
               x4E_loop fuel m ((pre2 ++ y) ++ l4) (length (pre2 ++ y)) (length (pre2 ++ y) + (n - (2 + length x + length y)))).
  { rewrite <- app_assoc, app_length. destruct (Nat.leb_spec (2 + length x + length y) n).
    - f_equal. lia.
    - destruct fuel; [lia|]. rewrite !loop_4E_end by lia. reflexivity. }
  rewrite Ee. clear Ee.
  replace (N.of_nat (length x) :: x ++ N.of_nat (length y) :: y ++ l4) with
    ((N.of_nat (length x) :: x) ++ (N.of_nat (length y) :: y) ++ l4) by reflexivity.
  destruct (IH (pre2 ++ y) l4 (n - (2 + length x + length y))%nat) as [(its & R & ->)|(R & ->)]; [lia|assumption| |].
  - left. eexists. split; [apply items_more; eassumption|]. reflexivity.
  - right. split; [|reflexivity]. intros items R'. cbn [app] in R'. apply items_head in R'; [|assumption].
    destruct R' as (x' & y' & l' & its & E1 & E2 & _ & R'').
    apply app_inj_len in E2; [|lia]. destruct E2 as [<- E2]. cbn [app] in E2.
    assert (Ey : N.of_nat (length y) = N.of_nat (length y')) by congruence. injection E2 as _ E2.
    apply app_inj_len in E2; [|lia]. destruct E2 as [<- <-]. exact (R _ R'').
Qed.

Lemma out_4E m b : bytes b -> (length b < 256)%nat -> outcome m 0x4E b (desc_parse m (tlv 0x4E b)).
Proof.
  intros Hb Hl. change (desc_parse m (tlv 78 b)) with (c <- x4E_check (tlv 78 b) ;; arm c (x4E_parse m) D4E (tlv 78 b)).
  unfold x4E_check. rewrite tlv_length. destruct (Nat.ltb_spec (2 + length b) 8) as [E|E].
  { left. eexists. split; [apply r4E'; lia|]. cbn [bind arm]. apply parse_raw_ok. assumption. }
  change (get (tlv 78 b) 6) with (get (tlv 78 b) (2 + 4)). rewrite get_tlv.
  destruct (Nat.ltb_spec 4 (length b)); [|lia]. cbn [bind]. fold (len_at b 4).
  replace (7 + len_at b 4)%nat with (2 + (5 + len_at b 4))%nat by lia. rewrite get_tlv.
  destruct (Nat.ltb_spec (5 + len_at b 4) (length b)) as [P|P].
  2:{ cbn [bind]. right. assert (O : oob 78 b) by (right; right; split; [reflexivity|lia]). split; [|split].
      - intros d R. inversion R; subst; try lia. no_raw.
      - reflexivity.
      - intros X. contradiction. }
  cbn [bind]. rewrite get_tlv1. cbn [bind]. fold (len_at b (5 + len_at b 4)). rewrite Nat2N.id.
  destruct (Nat.eqb_spec (length b) (8 - 2 + len_at b 4 + len_at b (5 + len_at b 4))) as [Q|Q].
  2:{ left. eexists. split; [apply r4E'; lia|]. cbn [arm]. apply parse_raw_ok. assumption. }
  cbn [arm]. unfold x4E_parse.
  change (get (tlv 78 b) 6) with (get (tlv 78 b) (2 + 4)). change (get (tlv 78 b) 2) with (get (tlv 78 b) (2 + 0)). rewrite !get_tlv.
  destruct (Nat.ltb_spec 4 (length b)); [|lia]. cbn [bind]. cbv zeta. fold (len_at b 4).
  replace (7 + len_at b 4)%nat with (2 + (5 + len_at b 4))%nat by lia. rewrite get_tlv.
  destruct (Nat.ltb_spec (5 + len_at b 4) (length b)); [|lia]. cbn [bind]. fold (len_at b (5 + len_at b 4)).
  destruct (Nat.ltb_spec 0 (length b)); [|lia]. cbn [bind].
  change (slice (tlv 78 b) 3 6) with (slice (tlv 78 b) (2 + 1) (2 + 4)). rewrite slice_tlv, slice_val by lia. cbn [bind].
  rewrite !from_text. cbn [bind].
  rewrite tlv_length.
  assert (S7 : tlv 78 b = (78 :: N.of_nat (length b) :: firstn 5 b) ++ skipn 5 b).
  { unfold tlv. cbn [app]. rewrite firstn_skipn. reflexivity. }
  assert (L7 : length (78 :: N.of_nat (length b) :: firstn 5 b) = 7%nat). { cbn [length]. rewrite firstn_length. lia. }
  destruct (loop_4E m (S (2 + length b)) (78 :: N.of_nat (length b) :: firstn 5 b) (skipn 5 b) (len_at b 4)) as [(items & R & G)|(R & G)].
  { rewrite skipn_length. lia. } { apply bytes_skipn. assumption. }
  - rewrite <- S7, L7 in G. replace (2 + (5 + len_at b 4))%nat with (7 + len_at b 4)%nat by lia. rewrite G. cbn [bind].
    left. eexists. split; [apply r4E; try eassumption; lia|].
    replace (7 + len_at b 4 + 1)%nat with (2 + (6 + len_at b 4))%nat by lia. rewrite <- Nat.add_assoc. rewrite slice_tlv, slice_val by lia.
    cbn [bind]. rewrite from_text. cbn [bind]. unfold text_at.
    replace (6 + len_at b 4 + len_at b (5 + len_at b 4) - (6 + len_at b 4))%nat with (len_at b (5 + len_at b 4)) by lia.
    rewrite !nth_field by (assumption || lia). do 3 f_equal.
    + apply (byte_high b 0 4 4); (assumption || lia).
    + apply (byte_low b 0 4 4); (assumption || lia || reflexivity).
  - rewrite <- S7, L7 in G. replace (2 + (5 + len_at b 4))%nat with (7 + len_at b 4)%nat by lia. rewrite G. cbn [bind].
    right. assert (O : oob 78 b).
    { right; right. split; [reflexivity|]. right. repeat split; [lia|lia|assumption]. }
    split; [|split].
    + intros d R'. inversion R'; subst; try lia; [|no_raw]. eapply R; eassumption.
    + reflexivity.
    + intros X. contradiction.
Qed.

Lemma out_raw m t b : ~ In t supported -> (length b < 256)%nat -> outcome m t b (desc_parse m (tlv t b)).
Proof.
  intros Ht Hl. left. eexists. split; [apply rRaw; assumption|].
  rewrite <- (parse_raw_ok t b Hl). unfold desc_parse. rewrite get_tlv0. cbn [bind].
  destruct t as [|p]; [reflexivity|].
  do 8 (try (destruct p as [p|p|]; try reflexivity)); exfalso; apply Ht; cbn; tauto.
Qed.

Theorem parse_outcome m t b : bytes b -> (length b < 256)%nat -> outcome m t b (desc_parse m (tlv t b)).
Proof.
  intros Hb Hl. destruct (in_dec N.eq_dec t supported) as [I|I]; [|apply out_raw; assumption].
  cbn [In supported] in I.
  repeat destruct I as [<-|I]; [apply out_09|apply out_0A|apply out_0E|apply out_40|apply out_41|apply out_43|apply out_44
    |apply out_48|apply out_4D|apply out_4E|apply out_52|apply out_58|apply out_5A|apply out_83|contradiction]; assumption.
Qed.

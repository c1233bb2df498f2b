(** Proofs about parsing descriptors (M_desc against [reads] of S_desc). *)
From Verif Require Import Prelude Layout Facts Facts2 S_utils S_text M_bytes M_utils M_text M_desc S_desc P_bytes P_utils P_text2 P_desc.

(** ** reading at an offset behind a prefix *)
Lemma get_at {A} (p l : list A) k : get (p ++ l) (length p + k) = get l k.
Proof. rewrite get_app_r by lia. f_equal. lia. Qed.
Lemma get_at0 {A} (p l : list A) : get (p ++ l) (length p) = get l 0.
Proof. rewrite <- (get_at p l 0). f_equal. lia. Qed.
Lemma slice_from_at {A} (p l : list A) k : slice_from (p ++ l) (length p + k) = slice_from l k.
Proof.
  unfold slice_from. rewrite app_length.
  destruct (Nat.leb_spec (length p + k) (length p + length l)), (Nat.leb_spec k (length l)); try lia; [|reflexivity].
  rewrite skipn_app, skipn_all2 by lia. cbn [app]. do 2 f_equal. lia.
Qed.
Lemma u16_at p l k : get_u16_at (p ++ l) (length p + k) = get_u16_at l k.
Proof. unfold get_u16_at. rewrite slice_from_at. reflexivity. Qed.
Lemma u24_at p l k : get_u24_at (p ++ l) (length p + k) = get_u24_at l k.
Proof. unfold get_u24_at. rewrite slice_from_at. reflexivity. Qed.
Lemma u16_at0 p l : get_u16_at (p ++ l) (length p) = get_u16_at l 0.
Proof. rewrite <- (u16_at p l 0). f_equal. lia. Qed.
Lemma slice_at {A} (p l : list A) i j : slice (p ++ l) (length p + i) (length p + j) = slice l i j.
Proof.
  unfold slice. rewrite app_length.
  destruct (Nat.leb_spec (length p + i) (length p + j)), (Nat.leb_spec i j); try lia; [|reflexivity].
  destruct (Nat.leb_spec (length p + j) (length p + length l)), (Nat.leb_spec j (length l)); try lia; [|reflexivity].
  cbn [andb]. rewrite skipn_app, skipn_all2 by lia. cbn [app]. do 2 f_equal; [|f_equal]; lia.
Qed.
Lemma slice_at0 {A} (p l : list A) j : slice (p ++ l) (length p) (length p + j) = slice l 0 j.
Proof. rewrite <- (slice_at p l 0 j). f_equal. lia. Qed.

(** ** fields and big endian numbers *)
Lemma N_of_bits_unpack l : bytes l -> N_of_bits (unpack l) = be l.
Proof.
  induction l as [|b l IH] using rev_ind; intros H; [reflexivity|].
  apply bytes_app in H. destruct H as [H1 H2]. apply bytes_cons in H2. destruct H2 as [Hb _].
  rewrite unpack_app, N_of_bits_app, unpack_length, be_app, IH by assumption. f_equal.
  unfold unpack. cbn [flat_map]. rewrite app_nil_r. rewrite bits_of_small by assumption. change (be [b]) with (256 * 0 + b). lia.
Qed.

Lemma skipn_unpack i l : skipn (8 * i) (unpack l) = unpack (skipn i l).
Proof.
  revert l. induction i as [|i IH]; intros l; [reflexivity|]. destruct l as [|b l]; [rewrite !skipn_nil; reflexivity|].
  replace (8 * S i)%nat with (8 + 8 * i)%nat by lia. cbn [skipn]. rewrite <- IH.
  unfold unpack at 1. cbn [flat_map]. fold (unpack l). reflexivity.
Qed.
Lemma firstn_unpack i l : firstn (8 * i) (unpack l) = unpack (firstn i l).
Proof.
  revert l. induction i as [|i IH]; intros l; [reflexivity|]. destruct l as [|b l]; [rewrite !firstn_nil; reflexivity|].
  replace (8 * S i)%nat with (8 + 8 * i)%nat by lia. cbn [firstn]. unfold unpack at 2. cbn [flat_map]. fold (unpack (firstn i l)).
  rewrite <- IH. unfold unpack at 1. cbn [flat_map]. fold (unpack l). reflexivity.
Qed.
Lemma field_be l i n : bytes l -> field l (8 * i) (8 * n) = be (firstn n (skipn i l)).
Proof.
  intros H. unfold field. rewrite skipn_unpack, firstn_unpack. apply N_of_bits_unpack.
  apply bytes_firstn, bytes_skipn. assumption.
Qed.

Lemma get_field l i : bytes l -> (i < length l)%nat -> get l i = Ok (field l (8 * i) 8).
Proof.
  intros H Hi. change 8%nat with (8 * 1)%nat at 2. rewrite (field_be l i 1) by assumption. rewrite (get_nth l i 0) by assumption. f_equal.
  destruct (skipn i l) as [|x r] eqn:E.
  - apply (f_equal (@length N)) in E. rewrite skipn_length in E. cbn in E. lia.
  - assert (G : nth i l 0 = x). { rewrite <- (firstn_skipn i l), E, app_nth2; rewrite firstn_length; [|lia].
      replace (i - Nat.min i (length l))%nat with 0%nat by lia. reflexivity. }
    rewrite G. cbn [firstn]. change (be [x]) with (256 * 0 + x). lia.
Qed.
Lemma get_u16_field l i : bytes l -> (i + 2 <= length l)%nat -> get_u16_at l i = Ok (field l (8 * i) 16).
Proof.
  intros H Hi. unfold get_u16_at, slice_from. destruct (Nat.leb_spec i (length l)); [|lia]. cbn [bind].
  rewrite get_u16_spec by (apply bytes_skipn; assumption). rewrite skipn_length.
  destruct (Nat.leb_spec 2 (length l - i)); [|lia]. f_equal. symmetry. exact (field_be l i 2 H).
Qed.
Lemma get_u24_field l i : bytes l -> (i + 3 <= length l)%nat -> get_u24_at l i = Ok (field l (8 * i) 24).
Proof.
  intros H Hi. unfold get_u24_at, slice_from. destruct (Nat.leb_spec i (length l)); [|lia]. cbn [bind].
  rewrite get_u24_spec by (apply bytes_skipn; assumption). rewrite skipn_length.
  destruct (Nat.leb_spec 3 (length l - i)); [|lia]. f_equal. symmetry. exact (field_be l i 3 H).
Qed.
Lemma get_u32_field l i : bytes l -> (i + 4 <= length l)%nat -> get_u32_at l i = Ok (field l (8 * i) 32).
Proof.
  intros H Hi. unfold get_u32_at, slice_from. destruct (Nat.leb_spec i (length l)); [|lia]. cbn [bind].
  rewrite get_u32_spec by (apply bytes_skipn; assumption). rewrite skipn_length.
  destruct (Nat.leb_spec 4 (length l - i)); [|lia]. f_equal. symmetry. exact (field_be l i 4 H).
Qed.

Lemma field_two t n b off w : field (t :: n :: b) (16 + off) w = field b off w.
Proof. exact (field_app [t; n] b off w). Qed.

Lemma firstn_plus {A} a b (l : list A) : firstn (a + b) l = firstn a l ++ firstn b (skipn a l).
Proof.
  revert l. induction a as [|a IH]; intros l; [reflexivity|]. destruct l as [|x l]; [cbn; rewrite firstn_nil; reflexivity|].
  cbn [Nat.add firstn skipn app]. f_equal. apply IH.
Qed.
Lemma skipn_plus {A} a b (l : list A) : skipn (a + b) l = skipn b (skipn a l).
Proof.
  revert l. induction a as [|a IH]; intros l; [reflexivity|]. destruct l as [|x l]; [cbn; rewrite !skipn_nil; reflexivity|].
  cbn [Nat.add skipn]. apply IH.
Qed.

(** sub-fields of a field *)
Lemma field_split l off a b : (off + a + b <= 8 * length l)%nat ->
  field l off (a + b) = field l off a * 2 ^ N.of_nat b + field l (off + a) b.
Proof.
  intros H. unfold field. rewrite firstn_plus, N_of_bits_app, skipn_plus. f_equal. f_equal. f_equal. f_equal.
  rewrite firstn_length, !skipn_length, unpack_length. lia.
Qed.
Lemma field_low l off a b : (off + a + b <= 8 * length l)%nat ->
  field l (off + a) b = field l off (a + b) mod 2 ^ N.of_nat b.
Proof.
  intros H. rewrite field_split by assumption. rewrite N.add_comm, N.mod_add by (apply N.pow_nonzero; lia).
  rewrite N.mod_small by apply field_lt. reflexivity.
Qed.
Lemma field_high l off a b : (off + a + b <= 8 * length l)%nat ->
  field l off a = field l off (a + b) / 2 ^ N.of_nat b.
Proof.
  intros H. rewrite field_split by assumption. rewrite N.div_add_l by (apply N.pow_nonzero; lia).
  rewrite N.div_small by apply field_lt. lia.
Qed.

Lemma land_mask v k mask : mask = N.ones k -> N.land v mask = v mod 2 ^ k.
Proof. intros ->. apply N.land_ones. Qed.
Lemma shr_div v k : N.shiftr v k = v / 2 ^ k.
Proof. apply N.shiftr_div_pow2. Qed.

Lemma from_text m b : dvb_from m b = Ok (text_read b).
Proof. destruct b as [|x b]; [reflexivity|]. rewrite dvb_from_spec. reflexivity. Qed.

(** ** records with a fixed body *)
Lemma raw_ok t b : (length b < 256)%nat -> raw_parse (tlv t b) = Ok (mkRaw t b).
Proof.
  intros H. unfold raw_parse, tlv. cbn [get nth_error bind]. rewrite Nat2N.id. unfold slice. cbn [length].
  destruct (Nat.leb_spec 2 (2 + length b)); [|lia]. destruct (Nat.leb_spec (2 + length b) (S (S (length b)))); [|lia].
  cbn [andb bind skipn]. replace (2 + length b - 2)%nat with (length b) by lia. rewrite firstn_all. reflexivity.
Qed.
Lemma parse_raw_ok t b : (length b < 256)%nat -> parse_raw (tlv t b) = Ok (DRaw (mkRaw t b)).
Proof. intros H. unfold parse_raw. rewrite raw_ok by assumption. reflexivity. Qed.

Lemma tlv_length t b : length (tlv t b) = (2 + length b)%nat.
Proof. reflexivity. Qed.
Lemma tlv_bytes t b : t < 256 -> (length b < 256)%nat -> bytes b -> bytes (tlv t b).
Proof. intros. constructor; [assumption|]. constructor; [lia|assumption]. Qed.

Lemma x09_reads t b : t < 256 -> bytes b -> (length b < 256)%nat -> (4 <= length b)%nat ->
  x09_parse (tlv t b) = Ok (mk09 (field b 0 16) (field b 19 13) (skipn 4 b)).
Proof.
  intros Ht Hb Hl H4. unfold x09_parse. pose proof (tlv_bytes t b Ht Hl Hb) as Hs.
  rewrite !get_u16_field by (rewrite ?tlv_length; (assumption || lia)). cbn [bind].
  unfold slice_from. rewrite tlv_length. destruct (Nat.leb_spec 6 (2 + length b)); [|lia]. cbn [bind].
  do 2 f_equal.
  change (8 * 4)%nat with (16 + 16)%nat. unfold tlv. rewrite field_two. rewrite (land_mask _ 13) by reflexivity.
  symmetry. apply (field_low b 16 3 13). lia.
Qed.

Lemma x0E_reads t b : t < 256 -> bytes b -> length b = 3%nat -> x0E_parse (tlv t b) = Ok (mk0E (field b 2 22)).
Proof.
  intros Ht Hb Hl. unfold x0E_parse. pose proof (tlv_bytes t b Ht ltac:(lia) Hb) as Hs.
  rewrite get_u24_field by (rewrite ?tlv_length; (assumption || lia)). cbn [bind]. do 2 f_equal.
  change (8 * 2)%nat with (16 + 0)%nat. unfold tlv. rewrite field_two. rewrite (land_mask _ 22) by reflexivity.
  symmetry. apply (field_low b 0 2 22). lia.
Qed.

Lemma bcd6_spec v : v < 2 ^ 24 -> nibs_ok 8 v = nibs_ok 6 v /\ nib_value 8 v = nib_value 6 v.
Proof.
  intros H. split.
  - rewrite (nibs_ok_app 2 6). change (16 ^ N.of_nat 6) with (2 ^ 24). rewrite N.div_small by assumption. reflexivity.
  - rewrite (nib_value_app 2 6). change (16 ^ N.of_nat 6) with (2 ^ 24). rewrite N.div_small by assumption. 
    change (nib_value 2 0) with 0. lia.
Qed.

(** a byte's bit group by shift and mask is the field *)
Lemma byte_field l i a b mask : bytes l -> (i < length l)%nat -> (a + b <= 8)%nat ->
  mask = N.shiftl (N.ones (N.of_nat b)) (N.of_nat (8 - a - b)) ->
  N.shiftr (N.land (field l (8 * i) 8) mask) (N.of_nat (8 - a - b)) = field l (8 * i + a) b.
Proof.
  intros Hb Hi Hab ->. rewrite N.shiftr_land, N.shiftr_shiftl_l by lia. rewrite N.sub_diag, N.shiftl_0_r, N.land_ones, shr_div.
  rewrite (field_low l (8 * i) a b) by lia. f_equal.
  rewrite (field_high l (8 * i) (a + b) (8 - a - b)) by lia. do 2 f_equal. lia.
Qed.

Lemma byte_low l i a b mask : bytes l -> (i < length l)%nat -> (a + b = 8)%nat ->
  mask = N.ones (N.of_nat b) -> N.land (field l (8 * i) 8) mask = field l (8 * i + a) b.
Proof.
  intros Hb Hi Hab ->. rewrite N.land_ones. rewrite (field_low l (8 * i) a b) by lia. rewrite Hab. reflexivity.
Qed.
Lemma byte_high l i a b : bytes l -> (i < length l)%nat -> (a + b = 8)%nat ->
  N.shiftr (field l (8 * i) 8) (N.of_nat b) = field l (8 * i) a.
Proof.
  intros Hb Hi Hab. rewrite shr_div. rewrite (field_high l (8 * i) a b) by lia. rewrite Hab. reflexivity.
Qed.

(** ** outcome of reading one record *)
Definition outcome (m : mode) (t : N) (b : list N) (r : res desc) : Prop :=
  (exists d, reads b t d /\ r = Ok d) \/
  ((forall d, ~ reads b t d) /\
   (oob t b -> r = Panic) /\
   (~ oob t b -> match m with Debug => r = Panic | Release => exists d, r = Ok d end)).

Ltac rd := match goal with
  | |- context [get_u32_at (tlv ?t ?b) ?i] => rewrite (get_u32_field (tlv t b) i) by (rewrite ?tlv_length; (assumption || lia))
  | |- context [get_u24_at (tlv ?t ?b) ?i] => rewrite (get_u24_field (tlv t b) i) by (rewrite ?tlv_length; (assumption || lia))
  | |- context [get_u16_at (tlv ?t ?b) ?i] => rewrite (get_u16_field (tlv t b) i) by (rewrite ?tlv_length; (assumption || lia))
  | |- context [get (tlv ?t ?b) ?i] => rewrite (get_field (tlv t b) i) by (rewrite ?tlv_length; (assumption || lia))
  end.
Lemma ftlv t b i w : field (tlv t b) (8 * (2 + i)) w = field b (8 * i) w.
Proof. replace (8 * (2 + i))%nat with (16 + 8 * i)%nat by lia. apply field_two. Qed.
Ltac inb k := match goal with |- context [field (tlv ?t ?b) (8 * S (S ?i)) ?w] => change (field (tlv t b) (8 * S (S i)) w) with (field (tlv t b) (8 * (2 + i)) w); rewrite (ftlv t b i w) end.

Lemma out_09 m b : bytes b -> (length b < 256)%nat -> outcome m 0x09 b (desc_parse m (tlv 0x09 b)).
Proof.
  intros Hb Hl. left. change (desc_parse m (tlv 9 b)) with (arm (x09_check (tlv 9 b)) x09_parse D09 (tlv 9 b)).
  unfold arm, x09_check. rewrite tlv_length. destruct (Nat.leb_spec 6 (2 + length b)).
  - eexists. split; [apply r09; lia|]. rewrite x09_reads by (assumption || lia). reflexivity.
  - eexists. split; [apply r09'; lia|]. apply parse_raw_ok. assumption.
Qed.
Lemma out_0E m b : bytes b -> (length b < 256)%nat -> outcome m 0x0E b (desc_parse m (tlv 0x0E b)).
Proof.
  intros Hb Hl. left. change (desc_parse m (tlv 14 b)) with (arm (x0E_check (tlv 14 b)) x0E_parse D0E (tlv 14 b)).
  unfold arm, x0E_check. rewrite tlv_length. destruct (Nat.eqb_spec (2 + length b) 5).
  - eexists. split; [apply r0E; lia|]. rewrite x0E_reads by (assumption || lia). reflexivity.
  - eexists. split; [apply r0E'; lia|]. apply parse_raw_ok. assumption.
Qed.
Lemma out_52 m b : bytes b -> (length b < 256)%nat -> outcome m 0x52 b (desc_parse m (tlv 0x52 b)).
Proof.
  intros Hb Hl. left. change (desc_parse m (tlv 82 b)) with (arm (x52_check (tlv 82 b)) x52_parse D52 (tlv 82 b)).
  unfold arm, x52_check. rewrite tlv_length. destruct (Nat.eqb_spec (2 + length b) 3).
  - eexists. split; [apply r52; lia|]. unfold x52_parse. pose proof (tlv_bytes 82 b ltac:(lia) Hl Hb).
    rd. inb tt. reflexivity.
  - eexists. split; [apply r52'; lia|]. apply parse_raw_ok. assumption.
Qed.
Lemma out_40 m b : bytes b -> (length b < 256)%nat -> outcome m 0x40 b (desc_parse m (tlv 0x40 b)).
Proof.
  intros Hb Hl. left. eexists. split; [apply r40|].
  change (desc_parse m (tlv 64 b)) with (arm (x40_check (tlv 64 b)) (x40_parse m) D40 (tlv 64 b)).
  unfold arm, x40_check. rewrite tlv_length. destruct (Nat.leb_spec 2 (2 + length b)); [|lia].
  unfold x40_parse, slice_from. rewrite tlv_length. destruct (Nat.leb_spec 2 (2 + length b)); [|lia]. cbn [bind].
  unfold tlv. cbn [skipn]. rewrite from_text. reflexivity.
Qed.

Lemma mulw_dec w m a k : mulw w m a k = if a * k <? w then Ok (k * a) else match m with Debug => Panic | Release => Ok ((a * k) mod w) end.
Proof. unfold mulw. rewrite (N.mul_comm k a). reflexivity. Qed.

(** all the reads of a fixed record as fields of its body *)
Ltac reads_all Hs := repeat (rd; cbn [bind]); repeat inb tt.
Ltac no_oob := let H := fresh in unfold oob; intros [[H _]|[[H _]|[H _]]]; discriminate H.
Ltac fail_case NR := right; split; [intros ? R; apply NR in R; (tauto || (repeat match goal with H : _ /\ _ |- _ => destruct H end; congruence || lia))|split; [intros X; exfalso; revert X; no_oob|intros _; first [reflexivity|eexists; reflexivity]]].

Lemma out_43 m b : bytes b -> (length b < 256)%nat -> outcome m 0x43 b (desc_parse m (tlv 0x43 b)).
Proof.
  intros Hb Hl. change (desc_parse m (tlv 67 b)) with (arm (x43_check (tlv 67 b)) (x43_parse m) D43 (tlv 67 b)).
  unfold arm, x43_check. rewrite tlv_length. destruct (Nat.eqb_spec (2 + length b) 13) as [E|E].
  2:{ left. eexists. split; [apply r43'; lia|]. apply parse_raw_ok. assumption. }
  assert (L : length b = 11%nat) by lia.
  unfold x43_parse. pose proof (tlv_bytes 67 b ltac:(lia) Hl Hb) as Hs.
  pose proof (field_lt b 0 32) as L0. pose proof (field_lt b 32 16) as L1. pose proof (field_lt b 56 24) as L2.
  change (2 ^ N.of_nat 32) with 4294967296 in L0. change (2 ^ N.of_nat 16) with 65536 in L1. change (2 ^ N.of_nat 24) with (2 ^ 24) in L2.
  assert (NR : forall d, reads b 67 d -> nibs_ok 8 (field b 0 32) = true /\ nibs_ok 4 (field b 32 16) = true /\ nibs_ok 6 (field b 56 24) = true).
  { intros d R. inversion R; subst; try lia; first [tauto|exfalso; match goal with H : ~ In _ _ |- _ => apply H; cbn; tauto end]. }
  repeat (rd; inb tt). cbn [Nat.mul Nat.add bind].
  rewrite u32_from_bcd_spec by assumption.
  pose proof (nib_value_8_lt (field b 0 32)) as V0. pose proof (nib_value_4_lt (field b 32 16)) as V1.
  assert (W : forall f, f = nib_value 8 (field b 0 32) -> mulw U32 m f 10 = Ok (10 * f)).
  { intros f ->. rewrite mulw_dec. destruct (N.ltb_spec (nib_value 8 (field b 0 32) * 10) U32); [reflexivity|]. unfold U32 in *. lia. }
  assert (W2 : mulw U16 m (nib_value 4 (field b 32 16)) 6 = if nib_value 4 (field b 32 16) * 6 <? U16 then Ok (6 * nib_value 4 (field b 32 16)) else match m with Debug => Panic | Release => Ok ((nib_value 4 (field b 32 16) * 6) mod U16) end).
  { apply mulw_dec. }
  destruct m.
  - destruct (nibs_ok 8 (field b 0 32)) eqn:N0; [|fail_case NR]. cbn [bind]. rewrite W by reflexivity. cbn [bind].
     rewrite u16_from_bcd_spec by assumption.
    destruct (nibs_ok 4 (field b 32 16)) eqn:N1; [|fail_case NR]. cbn [bind]. rewrite W2.
    pose proof (nib_value_ok_lt 4 _ N1) as V2. change (10 ^ N.of_nat 4) with 10000 in V2.
    destruct (N.ltb_spec (nib_value 4 (field b 32 16) * 6) U16); [|unfold U16 in *; lia]. cbn [bind].
      rewrite u32_from_bcd_spec by (apply N.lt_trans with (2 ^ 24); [assumption|reflexivity]).
    destruct (bcd6_spec _ L2) as [-> ->].
    destruct (nibs_ok 6 (field b 56 24)) eqn:N2; [|fail_case NR]. cbn [bind]. 
    left. eexists. split; [apply r43; assumption|]. do 3 f_equal.
    + apply (byte_field b 6 0 1); (assumption || lia || reflexivity).
    + apply (byte_field b 6 1 2); (assumption || lia || reflexivity).
    + apply (byte_field b 6 3 2); (assumption || lia || reflexivity).
    + apply (byte_field b 6 5 1); (assumption || lia || reflexivity).
    + apply (byte_low b 6 6 2); (assumption || lia || reflexivity).
    + apply (byte_low b 10 4 4); (assumption || lia || reflexivity).
  - cbn [bind]. rewrite W by reflexivity. cbn [bind].
     rewrite u16_from_bcd_spec by assumption. cbn [bind]. rewrite W2. clear W2.
    assert (V2 : nibs_ok 4 (field b 32 16) = true -> nib_value 4 (field b 32 16) * 6 < U16).
    { intros N1. pose proof (nib_value_ok_lt 4 _ N1) as V2. change (10 ^ N.of_nat 4) with 10000 in V2. unfold U16. lia. }
      rewrite u32_from_bcd_spec by (apply N.lt_trans with (2 ^ 24); [assumption|reflexivity]).
    destruct (bcd6_spec _ L2) as [_ ->]. 
    destruct (nibs_ok 8 (field b 0 32)) eqn:N0; [|destruct (nib_value 4 (field b 32 16) * 6 <? U16); cbn [bind]; fail_case NR].
    destruct (nibs_ok 4 (field b 32 16)) eqn:N1; [|destruct (nib_value 4 (field b 32 16) * 6 <? U16); cbn [bind]; fail_case NR].
    destruct (nibs_ok 6 (field b 56 24)) eqn:N2; [|destruct (nib_value 4 (field b 32 16) * 6 <? U16); cbn [bind]; fail_case NR].
    destruct (N.ltb_spec (nib_value 4 (field b 32 16) * 6) U16); [|specialize (V2 eq_refl); lia]. cbn [bind].
    left. eexists. split; [apply r43; assumption|]. do 3 f_equal.
    + apply (byte_field b 6 0 1); (assumption || lia || reflexivity).
    + apply (byte_field b 6 1 2); (assumption || lia || reflexivity).
    + apply (byte_field b 6 3 2); (assumption || lia || reflexivity).
    + apply (byte_field b 6 5 1); (assumption || lia || reflexivity).
    + apply (byte_low b 6 6 2); (assumption || lia || reflexivity).
    + apply (byte_low b 10 4 4); (assumption || lia || reflexivity).
Qed.

Lemma out_44 m b : bytes b -> (length b < 256)%nat -> outcome m 0x44 b (desc_parse m (tlv 0x44 b)).
Proof.
  intros Hb Hl. change (desc_parse m (tlv 68 b)) with (arm (x44_check (tlv 68 b)) (x44_parse m) D44 (tlv 68 b)).
  unfold arm, x44_check. rewrite tlv_length. destruct (Nat.eqb_spec (2 + length b) 13) as [E|E].
  2:{ left. eexists. split; [apply r44'; lia|]. apply parse_raw_ok. assumption. }
  assert (L : length b = 11%nat) by lia.
  unfold x44_parse. pose proof (tlv_bytes 68 b ltac:(lia) Hl Hb) as Hs.
  pose proof (field_lt b 0 32) as L0. pose proof (field_lt b 56 24) as L2.
  change (2 ^ N.of_nat 32) with 4294967296 in L0. change (2 ^ N.of_nat 24) with (2 ^ 24) in L2.
  assert (NR : forall d, reads b 68 d -> nibs_ok 8 (field b 0 32) = true /\ nibs_ok 6 (field b 56 24) = true /\ 100 * nib_value 8 (field b 0 32) < U32).
  { intros d R. inversion R; subst; try lia; first [tauto|exfalso; match goal with H : ~ In _ _ |- _ => apply H; cbn; tauto end]. }
  repeat (rd; inb tt). cbn [Nat.mul Nat.add bind].
  rewrite u32_from_bcd_spec by assumption.
  destruct m.
  - destruct (nibs_ok 8 (field b 0 32)) eqn:N0; [|fail_case NR]. cbn [bind]. rewrite mulw_dec.
    destruct (N.ltb_spec (nib_value 8 (field b 0 32) * 100) U32); [|fail_case NR]. cbn [bind].
    
    rewrite u32_from_bcd_spec by (apply N.lt_trans with (2 ^ 24); [assumption|reflexivity]).
    destruct (bcd6_spec _ L2) as [-> ->].
    destruct (nibs_ok 6 (field b 56 24)) eqn:N2; [|fail_case NR]. cbn [bind]. 
    left. eexists. split; [apply r44; [exact L|exact N0|exact N2|unfold U32 in *; lia]|]. do 3 f_equal.
    + apply (byte_low b 5 4 4); (assumption || lia || reflexivity).
    + apply (byte_low b 10 4 4); (assumption || lia || reflexivity).
  - cbn [bind]. rewrite mulw_dec.
    
    rewrite u32_from_bcd_spec by (apply N.lt_trans with (2 ^ 24); [assumption|reflexivity]).
    destruct (bcd6_spec _ L2) as [_ ->]. 
    destruct (N.ltb_spec (nib_value 8 (field b 0 32) * 100) U32) as [V|V]; cbn [bind]; [|fail_case NR].
    destruct (nibs_ok 8 (field b 0 32)) eqn:N0; [|fail_case NR].
    destruct (nibs_ok 6 (field b 56 24)) eqn:N2; [|fail_case NR].
    left. eexists. split; [apply r44; [exact L|exact N0|exact N2|unfold U32 in *; lia]|]. do 3 f_equal.
    + apply (byte_low b 5 4 4); (assumption || lia || reflexivity).
    + apply (byte_low b 10 4 4); (assumption || lia || reflexivity).
Qed.

Lemma out_5A m b : bytes b -> (length b < 256)%nat -> outcome m 0x5A b (desc_parse m (tlv 0x5A b)).
Proof.
  intros Hb Hl. change (desc_parse m (tlv 90 b)) with (arm (x5A_check (tlv 90 b)) (x5A_parse m) D5A (tlv 90 b)).
  unfold arm, x5A_check. rewrite tlv_length. destruct (Nat.eqb_spec (2 + length b) 13) as [E|E].
  2:{ left. eexists. split; [apply r5A'; lia|]. apply parse_raw_ok. assumption. }
  assert (L : length b = 11%nat) by lia.
  unfold x5A_parse. pose proof (tlv_bytes 90 b ltac:(lia) Hl Hb) as Hs.
  assert (NR : forall d, reads b 90 d -> 10 * field b 0 32 < U32).
  { intros d R. inversion R; subst; try lia; first [tauto|exfalso; match goal with H : ~ In _ _ |- _ => apply H; cbn; tauto end]. }
  repeat (rd; inb tt). cbn [Nat.mul Nat.add bind]. rewrite mulw_dec.
  destruct (N.ltb_spec (field b 0 32 * 10) U32) as [V|V].
  2:{ destruct m; cbn [bind]; fail_case NR. }
  cbn [bind]. left. eexists. split; [apply r5A; [exact L|unfold U32 in *; lia]|]. do 3 f_equal.
  + apply (byte_field b 4 0 3); (assumption || lia || reflexivity).
  + apply (byte_field b 4 3 1); (assumption || lia || reflexivity).
  + apply (byte_field b 4 4 1); (assumption || lia || reflexivity).
  + apply (byte_field b 4 5 1); (assumption || lia || reflexivity).
  + apply (byte_field b 5 0 2); (assumption || lia || reflexivity).
  + apply (byte_field b 5 2 3); (assumption || lia || reflexivity).
  + apply (byte_low b 5 5 3); (assumption || lia || reflexivity).
  + apply (byte_field b 6 0 3); (assumption || lia || reflexivity).
  + apply (byte_field b 6 3 2); (assumption || lia || reflexivity).
  + apply (byte_field b 6 5 2); (assumption || lia || reflexivity).
  + apply (byte_low b 6 7 1); (assumption || lia || reflexivity).
Qed.

(** Proofs about reading tables (the parse functions of M_tables against S_tables). *)
From Verif Require Import Prelude Layout Facts Facts2 S_ts S_crc S_utils S_psi M_bytes M_ts M_crc M_utils M_psi M_drive M_recv M_desc S_desc
  M_tables S_tables P_bytes P_crc P_utils P_psi P_mux P_mux2 P_sect P_mux3 P_desc P_desc2 P_desc3 W_psi W_desc P_tab.

(** the Psi holds the complete section [s], and possibly bytes behind it *)
Definition has (p : psi) (s : list N) : Prop :=
  section_ok s /\ p_size p = length s /\ exists extra, p_buffer p = s ++ extra /\ bytes extra.

Section Has.
Context (p : psi) (s : list N) (H : has p s).
Lemma has_bytes : bytes s. Proof. apply H. Qed.
Lemma has_buf : bytes (p_buffer p).
Proof. destruct H as (H1 & _ & e & -> & H2). apply bytes_app. split; [apply H1|assumption]. Qed.
Lemma has_len : (length s <= length (p_buffer p))%nat.
Proof. destruct H as (_ & _ & e & -> & _). rewrite app_length. lia. Qed.
Lemma has_field off w : (off + w <= 8 * length s)%nat -> field (p_buffer p) off w = field s off w.
Proof. destruct H as (_ & _ & e & -> & _). intros. apply field_prefix. assumption. Qed.
Lemma has_get i : (i < length s)%nat -> get (p_buffer p) i = Ok (field s (8 * i) 8).
Proof. intros L. rewrite get_field; [|apply has_buf|pose proof has_len; lia]. rewrite has_field by lia. reflexivity. Qed.
Lemma has_u16 i : (i + 2 <= length s)%nat -> get_u16_at (p_buffer p) i = Ok (field s (8 * i) 16).
Proof. intros L. rewrite get_u16_field; [|apply has_buf|pose proof has_len; lia]. rewrite has_field by lia. reflexivity. Qed.
Lemma has_u24 i : (i + 3 <= length s)%nat -> get_u24_at (p_buffer p) i = Ok (field s (8 * i) 24).
Proof. intros L. rewrite get_u24_field; [|apply has_buf|pose proof has_len; lia]. rewrite has_field by lia. reflexivity. Qed.
Lemma has_slice a n : (a + n <= length s)%nat -> slice (p_buffer p) a (a + n) = Ok (firstn n (skipn a s)).
Proof.
  intros L. pose proof has_len. rewrite slice_val by lia. destruct H as (_ & _ & e & -> & _). f_equal.
  rewrite skipn_app. replace (a - length s)%nat with 0%nat by lia. cbn [skipn].
  rewrite firstn_app, skipn_length. replace (a + n - a - (length s - a))%nat with 0%nat by lia. cbn [firstn]. rewrite app_nil_r.
  f_equal. lia.
Qed.
Lemma has_body a : (a + 4 <= length s)%nat -> body_from p a = Ok (inner a s).
Proof.
  intros L. unfold body_from. destruct H as (H1 & -> & _). replace (length s - 4)%nat with (a + (length s - 4 - a))%nat by lia.
  rewrite has_slice by lia. reflexivity.
Qed.
Lemma has_body_out a : (length s < a + 4)%nat -> body_from p a = Panic.
Proof.
  intros L. unfold body_from, slice. destruct H as ((_ & _ & H8 & _) & -> & _).
  destruct (Nat.leb_spec a (length s - 4)); [lia|]. reflexivity.
Qed.
Lemma has_check : psi_check p = Ok true.
Proof. destruct H as (H1 & H2 & e & H3 & H4). eapply check_extra; eassumption. Qed.
Lemma has_8 : (8 <= length s)%nat. Proof. destruct H as ((_ & _ & H8 & _) & _). exact H8. Qed.
Lemma has_version : version_of (p_buffer p) = Ok (field s 42 5).
Proof.
  pose proof has_8. unfold version_of. rewrite has_get by lia. cbn [bind]. f_equal.
  apply (byte_field s 5 2 5 0x3E); [apply has_bytes|lia|lia|reflexivity].
Qed.
End Has.

Lemma inner_bytes a s : bytes s -> bytes (inner a s).
Proof. intros H. apply bytes_firstn, bytes_skipn, H. Qed.
Lemma inner_length a s : (a + 4 <= length s)%nat -> length (inner a s) = (length s - 4 - a)%nat.
Proof. intros H. unfold inner. rewrite firstn_length, skipn_length. lia. Qed.

Lemma low12 s i : (i + 2 <= length s)%nat -> N.land (field s (8 * i) 16) 0x0FFF = field s (8 * i + 4) 12.
Proof. intros H. rewrite (land_mask _ 12) by reflexivity. symmetry. apply (field_low s (8 * i) 4 12). lia. Qed.
Lemma low13 s i : (i + 2 <= length s)%nat -> N.land (field s (8 * i) 16) 0x1FFF = field s (8 * i + 3) 13.
Proof. intros H. rewrite (land_mask _ 13) by reflexivity. symmetry. apply (field_low s (8 * i) 3 13). lia. Qed.

(** descriptor loops *)
Lemma loop_bytes recs : bytes (loop_of recs) -> Forall (fun r => bytes (snd r) /\ (length (snd r) < 256)%nat) recs.
Proof.
  induction recs as [|[t b] recs IH]; intros H; [constructor|]. change (loop_of ((t, b) :: recs)) with (tlv t b ++ loop_of recs) in H.
  apply bytes_app in H as [H1 H2]. constructor; [|apply IH; assumption]. cbn [snd]. unfold tlv in H1.
  apply bytes_cons in H1 as [_ H1]. apply bytes_cons in H1 as [H1 H3]. split; [assumption|lia].
Qed.
Lemma loop_parse m l ds old : bytes l -> loop_reads l ds -> descs_parse m old l = Ok (old ++ ds).
Proof.
  intros Hb (recs & tail & -> & I & F). apply bytes_app in Hb as [Hb _]. apply loop_bytes in Hb.
  rewrite descs_parse_records; [|eapply Forall_impl; [|exact Hb]; intros r [_ Hr]; exact Hr|assumption].
  apply parse_each_ok. revert Hb. induction F as [|r d recs ds R F IH]; intros Hb; [constructor|]. inversion Hb as [|? ? [B L] Hb']; subst.
  constructor; [apply parse_reads; assumption|apply IH; assumption].
Qed.

Lemma slice_from_ok {A} (l : list A) a : (a <= length l)%nat -> slice_from l a = Ok (skipn a l).
Proof. intros H. unfold slice_from. destruct (Nat.leb_spec a (length l)); [reflexivity|lia]. Qed.

(** dates *)
Lemma seconds_lt v : seconds v < 2 ^ 24.
Proof.
  unfold seconds. pose proof (nib_value_2_lt (v / 65536)). pose proof (nib_value_2_lt (v / 256)). pose proof (nib_value_2_lt v).
  change (2 ^ 24) with 16777216. lia.
Qed.
Lemma bcd_time_ok m v : v < 2 ^ 24 -> nibs_ok 6 v = true -> u32_from_bcd_time m v = Ok (seconds v).
Proof.
  intros Hv Hn. rewrite u32_from_bcd_time_spec by (change (2 ^ 24) with 16777216 in Hv; lia). cbv zeta. rewrite Hn. destruct m; reflexivity.
Qed.
Lemma mjd_ok m d : MJD_EPOCH <= d -> d < 2 ^ 16 -> from_mjd m d = Ok ((d - MJD_EPOCH) * 86400).
Proof.
  intros H L. unfold MJD_EPOCH in *. rewrite from_mjd_spec by assumption. destruct (N.leb_spec 40587 d); [reflexivity|lia].
Qed.
Lemma time_sum m d t : d < 2 ^ 16 -> addw U64 m ((d - MJD_EPOCH) * 86400) (seconds t) = Ok (time_at d t).
Proof.
  intros H. unfold time_at. apply addw_ok. pose proof (seconds_lt t). unfold U64, MJD_EPOCH. change (2 ^ 24) with 16777216 in *.
  change (2 ^ 16) with 65536 in *. change (2 ^ 64) with 18446744073709551616. lia.
Qed.
Lemma field16_lt l off : field l off 16 < 2 ^ 16. Proof. exact (field_lt l off 16). Qed.
Lemma field24_lt l off : field l off 24 < 2 ^ 24. Proof. exact (field_lt l off 24). Qed.

(** ** PAT *)
Lemma groups_step k l : (0 < k)%nat -> (k <= length l)%nat -> all_groups k l = firstn k l :: all_groups k (skipn k l).
Proof.
  intros Hk H. unfold all_groups. rewrite skipn_length. replace (length l) with (length l - k + 1 * k)%nat at 1 by lia.
  rewrite Nat.div_add by lia. rewrite Nat.add_1_r. reflexivity.
Qed.
Lemma groups_short k l : (length l < k)%nat -> all_groups k l = [].
Proof. intros H. unfold all_groups. rewrite Nat.div_small by assumption. reflexivity. Qed.

Lemma pat_item_reads r : bytes r -> (4 <= length r)%nat -> pat_item_parse r = Ok (pat_read r).
Proof.
  intros Hb Hl. unfold pat_item_parse, pat_read. rewrite !get_u16_field by (try assumption; lia). cbn [bind]. rewrite low13 by lia. reflexivity.
Qed.

Lemma pat_loop_spec : forall fuel pre l items, bytes l -> (length l < fuel)%nat ->
  pat_loop fuel (pre ++ l) (length pre) items = Ok (items ++ map pat_read (all_groups 4 l)).
Proof.
  induction fuel as [|f IH]; intros pre l items Hb Hf; [lia|]. cbn [pat_loop]. rewrite app_length.
  destruct (Nat.leb_spec (length pre + 4) (length pre + length l)) as [L|L].
  - rewrite slice_at0, slice_0 by lia. cbn [bind].
    rewrite pat_item_reads by (try apply bytes_firstn; try assumption; rewrite firstn_length; lia). cbn [bind].
    rewrite (groups_step 4 l) by lia. cbn [map].
    replace (pre ++ l) with ((pre ++ firstn 4 l) ++ skipn 4 l) by (rewrite <- app_assoc, firstn_skipn; reflexivity).
    replace (length pre + 4)%nat with (length (pre ++ firstn 4 l)) by (rewrite app_length, firstn_length; lia).
    rewrite IH by (try apply bytes_skipn; try assumption; rewrite skipn_length; lia). rewrite <- app_assoc. reflexivity.
  - rewrite groups_short by lia. cbn [map]. rewrite app_nil_r. reflexivity.
Qed.

Lemma pat_parse_section m old p s : has p s -> field s 0 8 = 0 -> (12 <= length s)%nat ->
  pat_parse m old p = Ok (pat_add old (mkPat (field s 42 5) (field s 24 16) (map pat_read (all_groups 4 (inner 8 s))))).
Proof.
  intros H T L. unfold pat_parse, pat_check.
  assert (E : (12 <=? p_size p)%nat = true). { destruct H as (_ & -> & _). apply Nat.leb_le. lia. }
  rewrite E. cbn [negb]. rewrite (has_get p s H 0) by lia. cbn [bind Nat.mul Nat.add]. rewrite T. cbn [negb N.eqb].
  rewrite (has_check p s H). cbn [bind negb].
  rewrite (has_u16 p s H 3), (has_version p s H), (has_body p s H 8) by lia. cbn [bind].
  pose proof (pat_loop_spec (S (length (inner 8 s))) [] (inner 8 s) (pat_items old)) as P. cbn [app length] in P.
  rewrite P by (try apply inner_bytes; try apply (has_bytes p s H); lia). reflexivity.
Qed.

(** ** items of the other tables *)
Lemma entry_len_ge h r : entry h r -> (h <= length r)%nat. Proof. intros [H _]. exact H. Qed.

Lemma pmt_item_reads m r i : bytes r -> entry 5 r -> pmt_read r i -> pmt_item_parse m r = Ok i.
Proof.
  intros Hb [Hl _] (ds & -> & R). unfold pmt_item_parse. rewrite get_field, get_u16_field by (try assumption; lia). cbn [bind].
  rewrite slice_from_ok by lia. cbn [bind]. rewrite (loop_parse m _ ds []) by (try apply bytes_skipn; assumption). cbn [bind app].
  rewrite low13 by lia. reflexivity.
Qed.
Lemma nit_item_reads m r i : bytes r -> entry 6 r -> nit_read r i -> nit_item_parse m r = Ok i.
Proof.
  intros Hb [Hl _] (ds & -> & R). unfold nit_item_parse. rewrite !get_u16_field by (try assumption; lia). cbn [bind].
  rewrite slice_from_ok by lia. cbn [bind]. rewrite (loop_parse m _ ds []) by (try apply bytes_skipn; assumption). reflexivity.
Qed.
Lemma bit_mid s i a b mask : bytes s -> (i < length s)%nat -> (a + b <= 8)%nat -> mask = N.ones (N.of_nat b) ->
  N.land (N.shiftr (field s (8 * i) 8) (N.of_nat (8 - a - b))) mask = field s (8 * i + a) b.
Proof.
  intros Hb Hi Hab ->. rewrite N.land_ones, shr_div. rewrite (field_low s (8 * i) a b) by lia. f_equal.
  rewrite (field_high s (8 * i) (a + b) (8 - a - b)) by lia. do 2 f_equal. lia.
Qed.
Lemma sdt_item_reads m r i : bytes r -> entry 5 r -> sdt_read r i -> sdt_item_parse m r = Ok i.
Proof.
  intros Hb [Hl _] (ds & -> & R). unfold sdt_item_parse. rewrite get_u16_field, !get_field by (try assumption; lia). cbn [bind].
  rewrite slice_from_ok by lia. cbn [bind]. rewrite (loop_parse m _ ds []) by (try apply bytes_skipn; assumption). cbn [bind app].
  pose proof (bit_mid r 2 6 1 1 Hb ltac:(lia) ltac:(lia) eq_refl) as E1.
  pose proof (byte_low r 2 7 1 1 Hb ltac:(lia) ltac:(lia) eq_refl) as E2.
  pose proof (bit_mid r 3 0 3 7 Hb ltac:(lia) ltac:(lia) eq_refl) as E3.
  pose proof (bit_mid r 3 3 1 1 Hb ltac:(lia) ltac:(lia) eq_refl) as E4.
  cbn [Nat.mul Nat.add Nat.sub] in *. change (N.of_nat 1) with 1 in *. change (N.of_nat 5) with 5 in *. change (N.of_nat 4) with 4 in *.
  rewrite E1, E2, E3, E4. reflexivity.
Qed.
Lemma eit_item_reads m r i : bytes r -> entry 12 r -> eit_read r i -> eit_item_parse m r = Ok i.
Proof.
  intros Hb [Hl _] (ds & -> & (H1 & H2) & H3 & R). unfold eit_item_parse.
  rewrite !get_u16_field, !get_u24_field, get_field by (try assumption; lia). cbn [bind Nat.mul Nat.add].
  rewrite mjd_ok by (try assumption; apply field16_lt). cbn [bind].
  rewrite !bcd_time_ok by (try assumption; apply field24_lt). cbn [bind]. rewrite time_sum by apply field16_lt. cbn [bind].
  rewrite slice_from_ok by lia. cbn [bind]. rewrite (loop_parse m _ ds []) by (try apply bytes_skipn; assumption). cbn [bind app].
  pose proof (bit_mid r 10 0 3 7 Hb ltac:(lia) ltac:(lia) eq_refl) as E3.
  pose proof (bit_mid r 10 3 1 1 Hb ltac:(lia) ltac:(lia) eq_refl) as E4.
  cbn [Nat.mul Nat.add Nat.sub] in *. change (N.of_nat 5) with 5 in *. change (N.of_nat 4) with 4 in *.
  rewrite E3, E4. reflexivity.
Qed.

(** ** the other tables *)
(** what Pmt::parse makes of a section: like pmt_reads, but the descriptors one byte early *)
Definition pmt_seen (s : list N) (t : pmt) : Prop :=
  let n := N.to_nat (field s 84 12) in
  exists ds items, t = mkPmt (field s 42 5) (field s 24 16) (field s 67 13) ds items /\
    (12 + n <= length s - 4)%nat /\ loop_reads (firstn n (skipn 11 s)) ds /\ entries_read 5 pmt_read (inner (12 + n) s) items.

Lemma pmt_parse_section m old p s t : has p s -> field s 0 8 = 0x02 -> (16 <= length s)%nat -> pmt_seen s t ->
  pmt_parse m old p = Ok (pmt_add old t).
Proof.
  intros H T L (ds & items & -> & Hn & R & E). unfold pmt_parse, pmt_check. set (n := N.to_nat (field s 84 12)) in *.
  assert (E1 : (16 <=? p_size p)%nat = true). { destruct H as (_ & -> & _). apply Nat.leb_le. lia. }
  rewrite E1. cbn [negb]. rewrite (has_get p s H 0) by lia. cbn [bind Nat.mul Nat.add]. rewrite T. change (2 =? 2) with true. cbn [negb].
  rewrite (has_check p s H). cbn [bind negb].
  rewrite (has_u16 p s H 3), (has_version p s H), (has_u16 p s H 8), (has_u16 p s H 10) by lia. cbn [bind].
  rewrite low12, low13 by lia. cbn [Nat.mul Nat.add]. fold n.
  change (S (S (S (S (S (S (S (S (S (S (S n))))))))))) with (11 + n)%nat. rewrite (has_slice p s H 11 n) by lia. cbn [bind].
  rewrite (loop_parse m _ ds) by (try (apply bytes_firstn, bytes_skipn, (has_bytes p s H)); assumption). cbn [bind].
  cbn [Nat.add]. change (S (S (S (S (S (S (S (S (S (S (S (S n)))))))))))) with (12 + n)%nat. rewrite (has_body p s H (12 + n)) by lia. cbn [bind].
  rewrite (entries_parse 5 (pmt_item_parse m) pmt_read _ _ items); try assumption; try lia;
    [reflexivity|apply inner_bytes, (has_bytes p s H)|apply pmt_item_reads].
Qed.

Lemma nit_parse_section m old p s t : has p s -> field s 0 8 = 0x40 \/ field s 0 8 = 0x41 -> (16 <= length s)%nat -> nit_reads s t ->
  nit_parse m old p = Ok (nit_add old t).
Proof.
  intros H T L (ds & items & -> & Hn & R & E). unfold nit_parse, nit_check. set (n := N.to_nat (field s 68 12)) in *.
  assert (E1 : (16 <=? p_size p)%nat = true). { destruct H as (_ & -> & _). apply Nat.leb_le. lia. }
  rewrite E1. cbn [negb]. rewrite (has_get p s H 0) by lia. cbn [bind Nat.mul Nat.add].
  assert (E2 : (N.land (field s 0 8) 0xFE =? 0x40) = true) by (destruct T as [-> | ->]; reflexivity). rewrite E2. cbn [negb].
  rewrite (has_check p s H). cbn [bind negb].
  rewrite (has_u16 p s H 3), (has_version p s H), (has_u16 p s H 8) by lia. cbn [bind].
  rewrite low12 by lia. cbn [Nat.mul Nat.add]. fold n.
  change (S (S (S (S (S (S (S (S (S (S n)))))))))) with (10 + n)%nat. rewrite (has_slice p s H 10 n) by lia. cbn [bind].
  rewrite (loop_parse m _ ds) by (try (apply bytes_firstn, bytes_skipn, (has_bytes p s H)); assumption). cbn [bind].
  cbn [Nat.add]. change (S (S (S (S (S (S (S (S (S (S (S (S n)))))))))))) with (12 + n)%nat. rewrite (has_body p s H (12 + n)) by lia. cbn [bind].
  rewrite (entries_parse 6 (nit_item_parse m) nit_read _ _ items); try assumption; try lia;
    [reflexivity|apply inner_bytes, (has_bytes p s H)|apply nit_item_reads].
Qed.

Lemma sdt_parse_section m old p s t : has p s -> field s 0 8 = 0x42 \/ field s 0 8 = 0x46 -> (15 <= length s)%nat -> sdt_reads s t ->
  sdt_parse m old p = Ok (sdt_add old t).
Proof.
  intros H T L (items & -> & E). unfold sdt_parse, sdt_check.
  assert (E1 : (15 <=? p_size p)%nat = true). { destruct H as (_ & -> & _). apply Nat.leb_le. lia. }
  rewrite E1. cbn [negb]. rewrite (has_get p s H 0) by lia. cbn [bind Nat.mul Nat.add].
  assert (E2 : (N.land (field s 0 8) 0xFB =? 0x42) = true) by (destruct T as [-> | ->]; reflexivity). rewrite E2. cbn [negb].
  rewrite (has_check p s H). cbn [bind negb].
  rewrite (has_u16 p s H 3), (has_version p s H), (has_u16 p s H 8), (has_body p s H 11) by lia. cbn [bind].
  rewrite (entries_parse 5 (sdt_item_parse m) sdt_read _ _ items); try assumption; try lia;
    [reflexivity|apply inner_bytes, (has_bytes p s H)|apply sdt_item_reads].
Qed.

Lemma eit_parse_section m old p s t : has p s -> 0x4E <= field s 0 8 <= 0x6F -> (18 <= length s)%nat -> eit_reads s t ->
  eit_parse m old p = Ok (eit_add old t).
Proof.
  intros H T L (items & -> & E). unfold eit_parse, eit_check.
  assert (E1 : (18 <=? p_size p)%nat = true). { destruct H as (_ & -> & _). apply Nat.leb_le. lia. }
  rewrite E1. cbn [negb]. rewrite (has_get p s H 0) by lia. cbn [bind Nat.mul Nat.add]. set (b := field s 0 8) in *.
  assert (E2 : ((b =? 0x4E) || (b =? 0x4F) || ((0x50 <=? b) && (b <=? 0x5F)) || ((0x60 <=? b) && (b <=? 0x6F))) = true).
  { destruct (N.eqb_spec b 0x4E), (N.eqb_spec b 0x4F), (N.leb_spec 0x50 b), (N.leb_spec b 0x5F), (N.leb_spec 0x60 b), (N.leb_spec b 0x6F);
      try reflexivity; lia. }
  rewrite E2. cbn [negb].
  rewrite (has_check p s H). cbn [bind negb].
  rewrite (has_u16 p s H 3), (has_version p s H), (has_u16 p s H 8), (has_u16 p s H 10), (has_body p s H 14) by lia. cbn [bind].
  rewrite (entries_parse 12 (eit_item_parse m) eit_read _ _ items); try assumption; try lia;
    [reflexivity|apply inner_bytes, (has_bytes p s H)|apply eit_item_reads].
Qed.

Lemma tot_parse_section m old p s t : has p s -> field s 0 8 = 0x73 -> (14 <= length s)%nat -> tot_reads s t ->
  tot_parse m old p = Ok (tot_add old t).
Proof.
  intros H T L (ds & -> & (T1 & T2) & Hn & R). unfold tot_parse, tot_check. set (n := N.to_nat (field s 68 12)) in *.
  assert (E1 : (14 <=? p_size p)%nat = true). { destruct H as (_ & -> & _). apply Nat.leb_le. lia. }
  rewrite E1. cbn [negb]. rewrite (has_get p s H 0) by lia. cbn [bind Nat.mul Nat.add]. rewrite T. change (115 =? 115) with true. cbn [negb].
  rewrite (has_check p s H). cbn [bind negb].
  rewrite (has_u16 p s H 3), (has_u24 p s H 5), (has_u16 p s H 8) by lia. cbn [bind Nat.mul Nat.add].
  rewrite mjd_ok by (try assumption; apply field16_lt). cbn [bind].
  rewrite !bcd_time_ok by (try assumption; apply field24_lt). cbn [bind]. rewrite time_sum by apply field16_lt. cbn [bind].
  change 64%nat with (8 * 8)%nat. rewrite low12 by lia. cbn [Nat.mul Nat.add]. fold n.
  change (S (S (S (S (S (S (S (S (S (S n)))))))))) with (10 + n)%nat. rewrite (has_slice p s H 10 n) by lia. cbn [bind].
  rewrite (loop_parse m _ ds) by (try (apply bytes_firstn, bytes_skipn, (has_bytes p s H)); assumption). reflexivity.
Qed.

(** the TDT has no CRC *)
Lemma tdt_parse_section m old p s t : bytes (p_buffer p) -> p_size p = 8%nat -> (8 <= length (p_buffer p))%nat ->
  s = firstn 8 (p_buffer p) -> field s 0 8 = 0x70 -> tdt_reads s t -> tdt_parse m old p = Ok t.
Proof.
  intros Hb Hz Hl Es T (-> & T1 & T2). unfold tdt_parse, tdt_check. rewrite Hz. cbn [Nat.eqb negb].
  rewrite get_field by (try assumption; lia). cbn [bind Nat.mul Nat.add].
  assert (F : forall off w, (off + w <= 64)%nat -> field (p_buffer p) off w = field s off w).
  { intros off w Hw. rewrite <- (firstn_skipn 8 (p_buffer p)), <- Es. apply field_prefix. rewrite Es, firstn_length. lia. }
  rewrite F by lia. rewrite T. change (112 =? 112) with true. cbn [negb].
  rewrite get_u16_field, get_u24_field by (try assumption; lia). cbn [bind Nat.mul Nat.add]. rewrite !F by lia.
  rewrite mjd_ok by (try assumption; apply field16_lt). cbn [bind].
  rewrite !bcd_time_ok by (try assumption; apply field24_lt). cbn [bind]. apply time_sum, field16_lt.
Qed.

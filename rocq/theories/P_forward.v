(** Proofs: descriptors that are read and written again. *)
From Verif Require Import Prelude Layout Facts Facts2 S_utils S_text M_bytes M_utils M_text M_desc S_desc P_bytes P_utils P_text2 P_desc P_desc2 P_desc3 W_desc W_desc2 S_forward.

(** ** a byte string is the table of its fields *)
Fixpoint cut (ws : list nat) (off : nat) (b : list N) : list (nat * N) :=
  match ws with [] => [] | w :: r => (w, field b off w) :: cut r (off + w) b end.

Lemma bits_of_bits l : bits_of (length l) (N_of_bits l) = l.
Proof.
  induction l as [|x l IH]; [reflexivity|]. cbn [length bits_of]. f_equal.
  - rewrite testbit_N_of_bits. rewrite Nat2N.id. cbn [rev]. rewrite app_nth2 by (rewrite rev_length; lia).
    rewrite rev_length, Nat.sub_diag. reflexivity.
  - change (x :: l) with ([x] ++ l). rewrite N_of_bits_app. rewrite <- (bits_of_mod (length l)).
    rewrite N.add_comm, N.mod_add by (apply N.pow_nonzero; discriminate). rewrite bits_of_mod. exact IH.
Qed.

Lemma field_bits_cut ws : forall off b, (off + list_sum ws <= length (unpack b))%nat ->
  field_bits (cut ws off b) = firstn (list_sum ws) (skipn off (unpack b)).
Proof.
  induction ws as [|w r IH]; intros off b H; [reflexivity|]. cbn [cut list_sum fold_right] in *. change (fold_right Init.Nat.add 0%nat r) with (list_sum r) in *.
  unfold field_bits in *. cbn [flat_map fst snd]. rewrite IH by lia. rewrite firstn_plus. f_equal.
  - unfold field. set (x := firstn w (skipn off (unpack b))). assert (L : length x = w).
    { subst x. rewrite firstn_length, skipn_length. lia. } rewrite <- L at 1. apply bits_of_bits.
  - rewrite skipn_plus. reflexivity.
Qed.

Lemma layout_cut ws b : bytes b -> list_sum ws = (8 * length b)%nat -> layout (cut ws 0 b) = b.
Proof.
  intros Hb E. unfold layout. rewrite field_bits_cut by (rewrite unpack_length; lia). cbn [skipn].
  rewrite E, <- unpack_length, firstn_all. apply pack_unpack. exact Hb.
Qed.

Lemma bits_of_split a b v : bits_of (a + b) v = bits_of a (v / 2 ^ N.of_nat b) ++ bits_of b v.
Proof.
  induction a as [|a IH]; [reflexivity|]. cbn [Nat.add bits_of app]. rewrite IH. f_equal.
  rewrite (testbit_div v _ (N.of_nat b)) by reflexivity. f_equal. lia.
Qed.
Lemma layout_split pre a b v post : layout (pre ++ ((a + b)%nat, v) :: post) = layout (pre ++ (a, v / 2 ^ N.of_nat b) :: (b, v) :: post).
Proof.
  unfold layout, field_bits. rewrite !flat_map_app. cbn [flat_map fst snd]. rewrite bits_of_split, <- !app_assoc. reflexivity.
Qed.

(** ** texts *)
Lemma text_read_ok b : bytes b -> text_ok (text_read b).
Proof.
  intros Hb. unfold text_ok. destruct b as [|x d]; [split; [reflexivity|constructor]|].
  apply bytes_cons in Hb as Hc. destruct Hc as [Hx Hd]. cbn [text_read].
  destruct (N.eqb_spec x 21); [split; [reflexivity|assumption]|].
  destruct (N.leb_spec 0x20 x); [split; [reflexivity|exact Hb]|]. destruct (N.ltb_spec x 16); [split; [cbn; lia|assumption]|].
  assert (Q : bytes [63]) by (constructor; [reflexivity|constructor]).
  destruct d as [|y [|z d]]; [split; [reflexivity|exact Q]|split; [reflexivity|exact Q]|]. destruct (x =? 16); [|split; [reflexivity|exact Q]].
  cbn [t_cp t_data]. apply bytes_cons in Hd as [_ Hd]. apply bytes_cons in Hd. exact Hd.
Qed.
Lemma text_kept b : bytes b -> text (text_read b) = b <-> stable b.
Proof.
  intros Hb. rewrite <- (rewrite_iff Debug b Hb). rewrite from_text. destruct (text_read_ok b Hb) as [C _]. split.
  - intros E. eexists. split; [reflexivity|]. rewrite assemble_text by assumption. rewrite E. reflexivity.
  - intros (t & [= <-] & E). rewrite assemble_text in E by assumption. injection E as E. exact E.
Qed.

Lemma layout_cut_at ws k n b : bytes b -> (k + n <= length b)%nat -> list_sum ws = (8 * n)%nat ->
  layout (cut ws (8 * k) b) = firstn n (skipn k b).
Proof.
  intros Hb L E. unfold layout. rewrite field_bits_cut by (rewrite unpack_length; lia).
  rewrite E, skipn_unpack, firstn_unpack. apply pack_unpack. apply bytes_firstn, bytes_skipn. exact Hb.
Qed.

(** ** groups *)
Lemma groups_all k n : forall b, length b = (k * n)%nat -> concat (groups k n b) = b /\ Forall (fun g => length g = k) (groups k n b).
Proof.
  induction n as [|n IH]; intros b H; cbn [groups].
  - split; [|constructor]. destruct b; [reflexivity|cbn in H; lia].
  - destruct (IH (skipn k b)) as [E F]; [rewrite skipn_length; lia|]. cbn [concat]. rewrite E, firstn_skipn. split; [reflexivity|].
    constructor; [rewrite firstn_length; lia|exact F].
Qed.
Lemma groups_bytes k n : forall b, bytes b -> Forall bytes (groups k n b).
Proof. induction n as [|n IH]; intros b H; cbn [groups]; constructor; [apply bytes_firstn; exact H|apply IH, bytes_skipn; exact H]. Qed.
Lemma all_groups_ok k b : (0 < k)%nat -> bytes b -> (length b mod k = 0)%nat ->
  concat (all_groups k b) = b /\ Forall (fun g => bytes g /\ length g = k) (all_groups k b).
Proof.
  intros Hk Hb H. unfold all_groups. destruct (groups_all k (length b / k) b) as [E F].
  { rewrite (Nat.div_mod (length b) k) at 1 by lia. lia. }
  split; [exact E|]. pose proof (groups_bytes k (length b / k) b Hb) as G. rewrite Forall_forall in *. auto.
Qed.
Lemma flat_map_map {A B} (f : A -> list B) (r : list B -> A) gs : Forall (fun g => f (r g) = g) gs -> flat_map f (map r gs) = concat gs.
Proof. induction 1; cbn [map flat_map concat]; congruence. Qed.
Lemma flat_map_back {A} (f : A -> list N) (r : list N -> A) k b : (0 < k)%nat -> bytes b -> (length b mod k = 0)%nat ->
  Forall (fun g => length (f (r g)) = k) (all_groups k b) -> flat_map f (map r (all_groups k b)) = b ->
  Forall (fun g => f (r g) = g) (all_groups k b).
Proof.
  intros Hk Hb H F E. destruct (flat_groups f k (map r (all_groups k b)) Hk) as [_ G]; [apply Forall_map; exact F|].
  rewrite E in G. symmetry in G. apply map_id_inv in G. exact G.
Qed.

(** ** entries *)
Lemma split3 (g : list N) n : length g = (3 + n)%nat -> exists p q, g = p ++ q /\ length p = 3%nat /\ length q = n.
Proof. intros H. exists (firstn 3 g), (skipn 3 g). rewrite firstn_skipn, firstn_length, skipn_length. repeat split; lia. Qed.

Lemma entry_0A g : bytes g -> length g = 4%nat -> item_0A (read_0A g) = g <-> stable (firstn 3 g).
Proof.
  intros Hb Hl. unfold item_0A, read_0A. cbn [d0A_code d0A_type].
  pose proof (layout_cut_at [8%nat] 3 1 g Hb ltac:(lia) eq_refl) as E. cbn [cut] in E. change (8 * 3)%nat with 24%nat in E. rewrite E.
  rewrite <- (text_kept (firstn 3 g) (bytes_firstn 3 g Hb)). rewrite (firstn_all2 (n := 1)) by (rewrite skipn_length; lia).
  transitivity (text (text_read (firstn 3 g)) ++ skipn 3 g = firstn 3 g ++ skipn 3 g); [rewrite firstn_skipn; reflexivity|].
  split; [apply app_inv_tail|intros ->; reflexivity].
Qed.
Lemma entry_41 g : bytes g -> length g = 3%nat -> item_41 (read_41 g) = g.
Proof.
  intros Hb Hl. unfold item_41, read_41. cbn [d41_sid d41_type]. pose proof (layout_cut [16; 8]%nat g Hb ltac:(rewrite Hl; reflexivity)) as E. exact E.
Qed.
Lemma entry_83 g : bytes g -> length g = 4%nat -> item_83 (read_83 g) = g <-> field g 17 5 = 31.
Proof.
  intros Hb Hl. unfold item_83, read_83. cbn [d83_sid d83_visible d83_lcn].
  pose proof (layout_cut [16; 1; 5; 10]%nat g Hb ltac:(rewrite Hl; reflexivity)) as E. cbn [cut Nat.add] in E. split.
  - intros H. rewrite <- H. apply (field_val _ 17 5 31); reflexivity.
  - intros H. rewrite H in E. exact E.
Qed.
Lemma hm_back v : v < 65536 -> nibs_ok 4 v = true -> nib_value 2 v < 60 -> hm (minutes v / 60) (minutes v mod 60) = v.
Proof.
  intros Hv N M. unfold minutes, hm. rewrite nibs_ok_4, andb_true_iff in N. destruct N as [N1 N2].
  replace ((60 * nib_value 2 (v / 256) + nib_value 2 v) / 60) with (nib_value 2 (v / 256)) by dlia.
  replace ((60 * nib_value 2 (v / 256) + nib_value 2 v) mod 60) with (nib_value 2 v) by dlia.
  rewrite (dec_nib 2) by exact N1. rewrite <- (nib2_mod v), (dec_nib 2) by exact N2. change (16 ^ N.of_nat 2) with 256. dlia.
Qed.
Lemma hms_back d v : v < 16777216 -> nibs_ok 6 v = true -> nib_value 2 (v / 65536) < 24 -> nib_value 2 (v / 256) < 60 -> nib_value 2 v < 60 ->
  let t := d * 86400 + seconds v in t / 86400 = d /\ hms (t / 3600 mod 24) (t / 60 mod 60) (t mod 60) = v.
Proof.
  intros Hv N H M S t. rewrite nibs_ok_6, nibs_ok_4, !andb_true_iff in N. destruct N as (N1 & N2 & N3).
  set (a := nib_value 2 (v / 65536)) in *. set (b := nib_value 2 (v / 256)) in *. set (c := nib_value 2 v) in *.
  assert (T : t = d * 86400 + 3600 * a + 60 * b + c) by (unfold t, seconds; fold a b c; lia). clearbody t.
  split; [dlia|]. replace (t / 3600 mod 24) with a by dlia. replace (t / 60 mod 60) with b by dlia. replace (t mod 60) with c by dlia.
  unfold hms. subst a b c. rewrite (dec_nib 2) by exact N1. rewrite <- (nib2_mod (v / 256)), <- (nib2_mod v).
  rewrite (dec_nib 2).
  2:{ replace (v / 256 mod 256) with (v mod 65536 / 256) by dlia. exact N2. }
  rewrite (dec_nib 2).
  2:{ replace (v mod 256) with ((v mod 65536) mod 256) by dlia. exact N3. }
  change (16 ^ N.of_nat 2) with 256. dlia.
Qed.
Lemma nib2_field g off : (off + 16 <= 8 * length g)%nat -> nib_value 2 (field g off 16) = nib_value 2 (field g (off + 8) 8).
Proof. intros H. rewrite (field_low g off 8 8) by lia. rewrite nib2_mod. reflexivity. Qed.
Lemma hms_parts h mi s : h < 100 -> mi < 100 -> s < 100 ->
  nib_value 2 (hms h mi s / 65536) = h /\ nib_value 2 (hms h mi s / 256) = mi /\ nib_value 2 (hms h mi s) = s.
Proof.
  intros H1 H2 H3. unfold hms. pose proof (dec_nibs_2_lt h). pose proof (dec_nibs_2_lt mi). pose proof (dec_nibs_2_lt s).
  set (v := dec_nibs 2 h * 65536 + dec_nibs 2 mi * 256 + dec_nibs 2 s).
  assert (D : v / 65536 = dec_nibs 2 h) by (subst v; dlia).
  assert (D2 : (v / 256) mod 256 = dec_nibs 2 mi) by (subst v; dlia).
  assert (M : v mod 256 = dec_nibs 2 s) by (subst v; dlia).
  rewrite <- (nib2_mod (v / 256)), <- (nib2_mod v), D, D2, M, !nib2_dec by assumption. auto.
Qed.
Lemma app_inv_len {A} (a b c d : list A) : length b = length d -> a ++ b = c ++ d -> a = c /\ b = d.
Proof.
  intros L E. apply app_inj_len; [|exact E]. apply (f_equal (@length A)) in E. rewrite !app_length in E. lia.
Qed.

Lemma m60 x : x mod 60 < 60. Proof. apply N.mod_lt. discriminate. Qed.
Lemma m60' x : x mod 60 < 100. Proof. pose proof (m60 x). lia. Qed.
Lemma m24 x : x mod 24 < 24. Proof. apply N.mod_lt. discriminate. Qed.
Lemma m24' x : x mod 24 < 100. Proof. pose proof (m24 x). lia. Qed.
Lemma d60 x : x < 6000 -> x / 60 < 100. Proof. intros H. apply N.div_lt_upper_bound; lia. Qed.

Lemma entry_58 g : bytes g -> length g = 13%nat -> good58 g -> item_58 (read_58 g) = g <-> kept_58 g.
Proof.
  intros Hb Hl (G1 & G2 & G3 & G4 & G5 & G6). unfold kept_58.
  assert (F1 : field g 40 8 = field g 32 16 mod 256) by (apply (field_low g 32 8 8); lia).
  assert (F2 : field g 96 8 = field g 88 16 mod 256) by (apply (field_low g 88 8 8); lia).
  assert (F3 : field g 64 8 = field g 64 24 / 65536) by (apply (field_high g 64 8 16); lia).
  assert (F4 : field g 80 8 = field g 64 24 mod 256) by (apply (field_low g 64 16 8); lia).
  assert (F5 : field g 72 8 = field g 64 24 / 256 mod 256).
  { transitivity (field g 64 16 mod 256); [apply (field_low g 64 8 8); lia|]. rewrite (field_high g 64 16 8) by lia. reflexivity. }
  assert (F6 : field g 32 8 = field g 32 16 / 256) by (apply (field_high g 32 8 8); lia).
  assert (F7 : field g 88 8 = field g 88 16 / 256) by (apply (field_high g 88 8 8); lia).
  rewrite F1, F2, F3, F4, F5, !nib2_mod. rewrite F6 in G2. rewrite F7 in G6.
  pose proof (field_lt g 32 16) as L1. pose proof (field_lt g 88 16) as L2. pose proof (field_lt g 64 24) as L3. pose proof (field_lt g 48 16) as L4.
  change (2 ^ N.of_nat 16) with 65536 in *. change (2 ^ N.of_nat 24) with 16777216 in *.
  rewrite <- (text_kept (firstn 3 g) (bytes_firstn 3 g Hb)).
  pose proof (layout_cut_at [6; 1; 1; 16; 16; 24; 16]%nat 3 10 g Hb ltac:(lia) eq_refl) as E. cbn [cut Nat.mul Nat.add] in E.
  rewrite (firstn_all2 (n := 10)) in E by (rewrite skipn_length; lia).
  unfold item_58, read_58. cbn [d58_code d58_region d58_pol d58_offset d58_time d58_next].
  set (o := field g 32 16) in *. set (n := field g 88 16) in *. set (v := field g 64 24) in *. set (j := field g 48 16) in *.
  set (t := (j - MJD_EPOCH) * 86400 + seconds v).
  split.
  - intros H. apply (fun e => eq_trans e (eq_sym (firstn_skipn 3 g))) in H. apply app_inv_len in H; [|rewrite layout_length by reflexivity; rewrite skipn_length, Hl; reflexivity].
    destruct H as [HT HL]. rewrite <- HL in E. split; [exact HT|].
    match type of HL with layout ?fs = _ => set (f1 := fs) in * end.
    match type of E with layout ?fs = _ => set (f2 := fs) in * end.
    assert (Q : forall off w a b, lookup f2 off w = Some a -> lookup f1 off w = Some b -> a < 2 ^ N.of_nat w -> a = b mod 2 ^ N.of_nat w).
    { intros off w a b A B L. rewrite <- (field_val f2 off w a eq_refl A L). rewrite E. apply field_at0; [reflexivity|exact B]. }
    assert (Q1 := Q 6%nat 1%nat _ _ eq_refl eq_refl (field_lt g 30 1)).
    assert (Q2 := Q 8%nat 16%nat _ _ eq_refl eq_refl L1).
    assert (Q3 := Q 40%nat 24%nat _ _ eq_refl eq_refl L3).
    assert (Q4 := Q 64%nat 16%nat _ _ eq_refl eq_refl L2).
    change (2 ^ N.of_nat 16) with 65536 in *. change (2 ^ N.of_nat 24) with 16777216 in *. change (1 mod 2 ^ N.of_nat 1) with 1 in Q1.
    rewrite N.mod_small in Q2 by apply hm_lt. rewrite N.mod_small in Q4 by apply hm_lt. rewrite N.mod_small in Q3 by apply hms_lt.
    assert (B1 : minutes o < 6000) by (unfold minutes; pose proof (nib_value_2_lt o); lia).
    assert (B2 : minutes n < 6000) by (unfold minutes; pose proof (nib_value_2_lt n); lia).
    destruct (hms_parts (t / 3600 mod 24) (t / 60 mod 60) (t mod 60)) as (P1 & P2 & P3); [apply m24'|apply m60'|apply m60'|].
    rewrite <- Q3 in P1, P2, P3. rewrite P1, P2, P3. split; [exact Q1|].
    destruct (hms_parts 0 (minutes o / 60) (minutes o mod 60)) as (_ & _ & P4); [reflexivity|apply d60; exact B1|apply m60'|].
    destruct (hms_parts 0 (minutes n / 60) (minutes n mod 60)) as (_ & _ & P5); [reflexivity|apply d60; exact B2|apply m60'|].
    change (hms 0 (minutes o / 60) (minutes o mod 60)) with (hm (minutes o / 60) (minutes o mod 60)) in P4.
    change (hms 0 (minutes n / 60) (minutes n mod 60)) with (hm (minutes n / 60) (minutes n mod 60)) in P5.
    rewrite <- Q2 in P4. rewrite <- Q4 in P5. rewrite P4, P5. repeat split; (apply m60 || apply m24).
  - intros (HT & K1 & K2 & K3 & K4 & K5 & K6). rewrite HT.
    destruct (hms_back (j - MJD_EPOCH) v L3 G4 K3 K4 K5) as [T1 T2]. fold t in T1, T2.
    rewrite (hm_back o L1 G1 K2), (hm_back n L2 G5 K6), T1, T2. replace (MJD_EPOCH + (j - MJD_EPOCH)) with j by lia.
    rewrite K1 in E. rewrite E. apply firstn_skipn.
Qed.

(** Proofs: the whole descriptor, and loops. *)
From Verif Require Import Prelude Layout Facts Facts2 S_utils S_text M_bytes M_utils M_text M_desc S_desc P_bytes P_utils P_text2 P_desc P_desc2 P_desc3 W_desc W_desc2 S_forward P_forward.

Lemma wire_text b i : text_at b i = text_read (wire_at b i).
Proof. reflexivity. Qed.
Lemma wire_bytes b i : bytes b -> bytes (wire_at b i).
Proof. intros H. apply bytes_firstn, bytes_skipn. exact H. Qed.
Lemma wire_len b i : (S i + len_at b i <= length b)%nat -> length (wire_at b i) = len_at b i.
Proof. intros H. unfold wire_at. rewrite firstn_length, skipn_length. lia. Qed.
Lemma nth_len b i : bytes b -> N.of_nat (len_at b i) = nth i b 0.
Proof. intros _. unfold len_at. apply N2Nat.id. Qed.
(** a length byte and its text in front of the rest *)
Lemma cut_sized b i : bytes b -> (S i + len_at b i <= length b)%nat ->
  skipn i b = (N.of_nat (length (wire_at b i)) :: wire_at b i) ++ skipn (S i + len_at b i) b.
Proof.
  intros Hb H. rewrite wire_len by assumption. rewrite nth_len by assumption. rewrite skipn_plus. unfold wire_at.
  cbn [app]. rewrite firstn_skipn. revert b H Hb. induction i as [|i IH]; intros [|x b] H Hb; cbn [length] in H; try lia.
  - reflexivity.
  - cbn [skipn nth]. apply bytes_cons in Hb as [_ Hb]. apply (IH b); [|exact Hb]. unfold len_at in *. cbn [nth] in H. lia.
Qed.
Lemma sized_kept b i : bytes b -> stable (wire_at b i) -> sized (text_at b i) = N.of_nat (length (wire_at b i)) :: wire_at b i.
Proof. intros Hb S. unfold sized. rewrite wire_text. apply (text_kept _ (wire_bytes b i Hb)) in S. rewrite S. reflexivity. Qed.
Lemma code3 b : bytes b -> length b = 3%nat -> stable b -> code_ok (text_read b).
Proof. intros Hb Hl S. split; [apply text_read_ok; exact Hb|]. apply (text_kept b Hb) in S. rewrite S. exact Hl. Qed.

Lemma f_lt b off w k : k = 2 ^ N.of_nat w -> field b off w < k.
Proof. intros ->. apply field_lt. Qed.

Ltac flt := apply f_lt; reflexivity.

Lemma rate_kept b : bytes b -> length b = 11%nat -> nibs_ok 6 (field b 56 24) = true ->
  rate7 (nib_value 6 (field b 56 24)) = field b 56 24 * 16.
Proof.
  intros Hb Hl N. rewrite rate7_eq, (dec_nib 6) by exact N. rewrite N.mod_small; [reflexivity|]. apply field_lt.
Qed.

Lemma same_body t b d : bytes b -> (length b < 256)%nat -> t < 256 -> reads b t d -> faithful t b -> body d = b /\ fields_ok d /\ no_items d.
Proof.
  intros Hb Hl Ht R F. destruct R as [L|L|L|L|L|L| |L|L|L N1 N2 N3|L|L N1 N2 N3|L|L E|L|L E|L|items L E I|L|L|L|L G|L|L Q|L|L|L|t U];
    cbn [faithful] in F; cbn [body fields_ok no_items];
    try (split; [reflexivity|split; [split; [exact Ht|exact Hb]|exact I]]);
    try (split; [reflexivity|split; [split; [exact Ht|exact Hb]|exact Logic.I]]).
  - (* 09 *) specialize (F L). cbn [d09_caid d09_pid d09_data]. split; [|split; [split; [flt|split; [flt|apply bytes_skipn; exact Hb]]|exact I]].
    pose proof (layout_cut_at [16; 3; 13]%nat 0 4 b Hb ltac:(lia) eq_refl) as E. cbn [cut Nat.mul Nat.add skipn] in E.
    rewrite F in E. rewrite E. apply firstn_skipn.
  - (* 0A *) specialize (F L). destruct (all_groups_ok 4 b ltac:(lia) Hb L) as [C G].
    split; [|split; [|exact I]].
    + rewrite flat_map_map; [exact C|]. rewrite Forall_forall in *. intros g Hg. destruct (G g Hg). apply entry_0A; auto.
    + apply Forall_map. rewrite Forall_forall in *. intros g Hg. destruct (G g Hg) as [G1 G2]. cbn [read_0A d0A_code d0A_type].
      split; [|flt]. apply code3; [apply bytes_firstn; assumption|rewrite firstn_length; lia|auto].
  - (* 0E *) specialize (F L). cbn [d0E_bitrate]. split; [|split; [flt|exact I]].
    pose proof (layout_cut [2; 22]%nat b Hb ltac:(rewrite L; reflexivity)) as E. cbn [cut Nat.add] in E. rewrite F in E. exact E.
  - (* 40 *) split; [apply text_kept; assumption|]. split; [apply text_read_ok; exact Hb|exact I].
  - (* 41 *) destruct (all_groups_ok 3 b ltac:(lia) Hb L) as [C G]. split; [|split; [|exact I]].
    + rewrite flat_map_map; [exact C|]. eapply Forall_impl; [|exact G]. intros g [G1 G2]. apply entry_41; assumption.
    + apply Forall_map. apply Forall_forall. intros g _. cbn [read_41 d41_sid d41_type]. split; flt.
  - (* 43 *) specialize (F L). cbn [d43_freq d43_orbital d43_we d43_pol d43_rof d43_s2 d43_mod d43_rate d43_fec].
    pose proof (nib_value_ok_lt 8 _ N1) as B1. pose proof (nib_value_ok_lt 4 _ N2) as B2. pose proof (nib_value_ok_lt 6 _ N3) as B3.
    change (10 ^ N.of_nat 8) with 100000000 in B1. change (10 ^ N.of_nat 4) with 10000 in B2. change (10 ^ N.of_nat 6) with 1000000 in B3.
    split; [|split; [|exact I]].
    + rewrite rate_kept by assumption. rewrite (N.mul_comm 10), (N.mul_comm 6), !N.div_mul by discriminate.
      rewrite (dec_nib 8), (dec_nib 4) by assumption. change (16 ^ N.of_nat 8) with (2 ^ N.of_nat 32). change (16 ^ N.of_nat 4) with (2 ^ N.of_nat 16).
      rewrite !N.mod_small by apply field_lt.
      pose proof (layout_cut [32; 16; 1; 2; 2; 1; 2; 28; 4]%nat b Hb ltac:(rewrite L; reflexivity)) as E. cbn [cut Nat.add] in E.
      pose proof (field_split b 56 24 4 ltac:(lia)) as S. cbn [Nat.add] in S. rewrite F, N.add_0_r in S. change (2 ^ N.of_nat 4) with 16 in S.
      rewrite S in E. exact E.
    + change (10 ^ 9) with 1000000000. change (10 ^ 6) with 1000000. repeat split; try lia; flt.
  - (* 44 *) specialize (F L). destruct F as [F1 F2]. cbn [d44_freq d44_outer d44_mod d44_rate d44_fec].
    pose proof (nib_value_ok_lt 8 _ N1) as B1. pose proof (nib_value_ok_lt 6 _ N2) as B3.
    change (10 ^ N.of_nat 8) with 100000000 in B1. change (10 ^ N.of_nat 6) with 1000000 in B3.
    split; [|split; [|exact I]].
    + rewrite rate_kept by assumption. rewrite (N.mul_comm 100), !N.div_mul by discriminate.
      rewrite (dec_nib 8) by assumption. change (16 ^ N.of_nat 8) with (2 ^ N.of_nat 32).
      rewrite !N.mod_small by apply field_lt.
      pose proof (layout_cut [32; 12; 4; 8; 28; 4]%nat b Hb ltac:(rewrite L; reflexivity)) as E. cbn [cut Nat.add] in E.
      pose proof (field_split b 56 24 4 ltac:(lia)) as S. cbn [Nat.add] in S. rewrite F2, N.add_0_r in S. change (2 ^ N.of_nat 4) with 16 in S.
      rewrite S, F1 in E. exact E.
    + change (10 ^ 6) with 1000000. split; [exact N3|]. repeat split; try lia; flt.
  - (* 48 *) destruct (F L E) as [S1 S2]. cbn [d48_type d48_provider d48_name].
    split; [|split; [split; [flt|split; rewrite wire_text; apply text_read_ok, wire_bytes; exact Hb]|exact I]].
    rewrite !sized_kept by assumption.
    pose proof (layout_cut_at [8%nat] 0 1 b Hb ltac:(lia) eq_refl) as C. cbn [cut Nat.mul Nat.add skipn] in C. rewrite C.
    transitivity (firstn 1 b ++ skipn 1 b); [|apply firstn_skipn]. f_equal. rewrite (cut_sized b 1 Hb ltac:(lia)). f_equal.
    change (2 + len_at b 1)%nat with (2 + len_at b 1)%nat. rewrite (cut_sized b (2 + len_at b 1) Hb ltac:(lia)).
    rewrite (skipn_all2 (n := (S (2 + len_at b 1) + len_at b (2 + len_at b 1)))) by lia. rewrite app_nil_r. reflexivity.
  - (* 4D *) destruct (F L E) as (S0 & S1 & S2). cbn [d4D_lang d4D_name d4D_text].
    assert (C0 : code_ok (text_read (firstn 3 b))) by (apply code3; [apply bytes_firstn; exact Hb|rewrite firstn_length; lia|exact S0]).
    split; [|split; [split; [exact C0|split; rewrite wire_text; apply text_read_ok, wire_bytes; exact Hb]|exact I]].
    rewrite !sized_kept by assumption. apply (text_kept _ (bytes_firstn 3 b Hb)) in S0. rewrite S0.
    transitivity (firstn 3 b ++ skipn 3 b); [|apply firstn_skipn]. f_equal. rewrite (cut_sized b 3 Hb ltac:(lia)). f_equal.
    rewrite (cut_sized b (4 + len_at b 3) Hb ltac:(lia)).
    rewrite (skipn_all2 (n := (S (4 + len_at b 3) + len_at b (4 + len_at b 3)))) by lia. rewrite app_nil_r. reflexivity.
  - (* 4E *) destruct (F L E) as (S0 & Z & S2). cbn [d4E_num d4E_last d4E_lang d4E_items d4E_text]. rewrite Z in *. inversion I; [|lia]; subst.
    cbn [flat_map app length]. change (5 + 0)%nat with 5%nat in *.
    assert (C0 : code_ok (text_read (firstn 3 (skipn 1 b)))).
    { apply code3; [apply bytes_firstn, bytes_skipn; exact Hb|rewrite firstn_length, skipn_length; lia|exact S0]. }
    split; [|split; [|reflexivity]].
    2:{ split; [flt|]. split; [flt|]. split; [exact C0|]. split; [constructor|]. rewrite wire_text. apply text_read_ok, wire_bytes; exact Hb. }
    rewrite !sized_kept by assumption. apply (text_kept _ (bytes_firstn 3 _ (bytes_skipn 1 b Hb))) in S0. rewrite S0.
    pose proof (layout_cut_at [4; 4]%nat 0 1 b Hb ltac:(lia) eq_refl) as C. cbn [cut Nat.mul Nat.add] in C. rewrite C.
    transitivity (firstn 1 b ++ skipn 1 b); [|apply firstn_skipn]. f_equal.
    transitivity (firstn 3 (skipn 1 b) ++ skipn 3 (skipn 1 b)); [|apply firstn_skipn]. f_equal.
    rewrite <- skipn_plus. change (1 + 3)%nat with 4%nat. rewrite (cut_sized b 4 Hb ltac:(lia)). rewrite (wire_len b 4) by lia. rewrite Z.
    replace (wire_at b 4) with (@nil N) by (unfold wire_at; rewrite Z; reflexivity). cbn [app]. f_equal. change (5 + 0)%nat with 5%nat.
    rewrite (cut_sized b 5 Hb ltac:(lia)). rewrite (skipn_all2 (n := (6 + len_at b 5))) by lia. rewrite app_nil_r. reflexivity.
  - (* 52 *) split; [|split; [flt|exact I]]. destruct b as [|x [|? ?]]; cbn [length] in L; try lia.
    f_equal. symmetry. apply (nth_field [x] 0 Hb). cbn. lia.
  - (* 58 *) specialize (F L). destruct (all_groups_ok 13 b ltac:(lia) Hb L) as [C A]. change (Forall good58 (all_groups 13 b)) in G.
    split; [|split; [|exact I]].
    + rewrite flat_map_map; [exact C|]. rewrite Forall_forall in *. intros g Hg. destruct (A g Hg). apply entry_58; auto.
    + apply Forall_map. rewrite Forall_forall in *. intros g Hg. destruct (A g Hg) as [A1 A2]. specialize (F g Hg). specialize (G g Hg).
      destruct F as (K0 & K1 & K2 & K3 & K4 & K5 & K6). destruct G as (G1 & G2 & G3 & G4 & G5 & G6).
      unfold ok_58i. cbn [read_58 d58_code d58_region d58_pol d58_offset d58_time d58_next].
      split; [apply code3; [apply bytes_firstn; assumption|rewrite firstn_length; lia|assumption]|].
      split; [flt|]. split; [flt|].
      assert (F1 : nib_value 2 (field g 32 16) = nib_value 2 (field g 40 8)) by (apply (nib2_field g 32); lia).
      assert (F2 : nib_value 2 (field g 88 16) = nib_value 2 (field g 96 8)) by (apply (nib2_field g 88); lia).
      assert (F3 : field g 64 8 = field g 64 24 / 65536) by (apply (field_high g 64 8 16); lia).
      assert (F4 : field g 80 8 = field g 64 24 mod 256) by (apply (field_low g 64 16 8); lia).
      assert (F5 : field g 72 8 = field g 64 24 / 256 mod 256).
      { transitivity (field g 64 16 mod 256); [apply (field_low g 64 8 8); lia|]. rewrite (field_high g 64 16 8) by lia. reflexivity. }
      assert (F6 : field g 32 8 = field g 32 16 / 256) by (apply (field_high g 32 8 8); lia).
      assert (F7 : field g 88 8 = field g 88 16 / 256) by (apply (field_high g 88 8 8); lia).
      rewrite F3 in K3. rewrite F5, nib2_mod in K4. rewrite F4, nib2_mod in K5. rewrite F6 in G2. rewrite F7 in G6.
      pose proof (field_lt g 48 16) as L4. change (2 ^ N.of_nat 16) with 65536 in L4.
      unfold minutes, seconds, MJD_END, MJD_EPOCH in *. rewrite F1, F2. repeat split; lia.
  - (* 5A *) specialize (F L). destruct F as [F1 F2].
    cbn [d5A_freq d5A_bw d5A_prio d5A_ts d5A_fec d5A_mod d5A_hier d5A_hp d5A_lp d5A_guard d5A_trans d5A_other].
    split; [|split; [split; [exact Q|repeat split; flt]|exact I]].
    rewrite (N.mul_comm 10), N.div_mul by discriminate.
    pose proof (layout_cut [32; 3; 1; 1; 1; 2; 2; 3; 3; 3; 2; 2; 1; 32]%nat b Hb ltac:(rewrite L; reflexivity)) as E. cbn [cut Nat.add] in E.
    rewrite F1, F2 in E. exact E.
  - (* 83 *) specialize (F L). destruct (all_groups_ok 4 b ltac:(lia) Hb L) as [C G]. split; [|split; [|exact I]].
    + rewrite flat_map_map; [exact C|]. rewrite Forall_forall in *. intros g Hg. destruct (G g Hg). apply entry_83; auto.
    + apply Forall_map. apply Forall_forall. intros g _. cbn [read_83 d83_sid d83_visible d83_lcn]. repeat split; flt.
Qed.

(** Combinations and witnesses for Props_ts. *)
From Verif Require Import Prelude Layout Facts S_ts M_bytes M_ts M_pes P_bytes P_ts P_pcr P_pes.

Lemma roundtrip_all l l' v :
  (set_u16 l v = Ok l' -> get_u16 l' = Ok (v mod 65536)) /\
  (set_u24 l v = Ok l' -> get_u24 l' = Ok (v mod 16777216)) /\
  (set_u32 l v = Ok l' -> get_u32 l' = Ok (v mod 4294967296)).
Proof. repeat split; [apply set_get_u16 | apply set_get_u24 | apply set_get_u32]. Qed.

Lemma header_getters ts : (4 <= length ts)%nat -> bytes ts ->
  is_sync ts = Ok (field ts 0 8 =? 0x47) /\
  is_error ts = Ok (flag ts 8) /\
  is_pusi ts = Ok (flag ts 9) /\
  get_pid ts = Ok (field ts 11 13) /\
  is_scrambled ts = Ok (negb (field ts 24 2 =? 0)) /\
  is_adaptation ts = Ok (flag ts 26) /\
  is_payload ts = Ok (flag ts 27) /\
  get_cc ts = Ok (field ts 28 4).
Proof.
  intros Hl Hb. repeat split.
  - apply is_sync_spec; [lia|assumption].
  - apply is_error_spec; lia.
  - apply is_pusi_spec; lia.
  - apply get_pid_spec; [lia|assumption].
  - apply is_scrambled_spec; lia.
  - apply is_adaptation_spec; lia.
  - apply is_payload_spec; lia.
  - apply get_cc_spec; [lia|assumption].
Qed.

Lemma header_bytes sync tei pusi prio pid tsc af pl cc rest : bytes rest ->
  bytes (ts_header sync tei pusi prio pid tsc af pl cc ++ rest).
Proof. intros H. apply bytes_app. split; [apply layout_bytes|assumption]. Qed.

Lemma header_len sync tei pusi prio pid tsc af pl cc rest :
  (4 <= length (ts_header sync tei pusi prio pid tsc af pl cc ++ rest))%nat.
Proof. rewrite app_length. change (length (ts_header sync tei pusi prio pid tsc af pl cc)) with 4%nat. lia. Qed.

Section Fields.
  Variables sync tei pusi prio pid tsc af pl cc : N.
  Variable rest : list N.
  Let ts := ts_header sync tei pusi prio pid tsc af pl cc ++ rest.
  Let fs := [(8%nat, sync); (1%nat, tei); (1%nat, pusi); (1%nat, prio); (13%nat, pid);
          (2%nat, tsc); (1%nat, af); (1%nat, pl); (4%nat, cc)].
  Lemma f_sync : field ts 0 8 = sync mod 256.
  Proof. exact (field_layout [] 8 sync (skipn 1 fs) rest eq_refl). Qed.
  Lemma f_tei : field ts 8 1 = tei mod 2.
  Proof. exact (field_layout (firstn 1 fs) 1 tei (skipn 2 fs) rest eq_refl). Qed.
  Lemma f_pusi : field ts 9 1 = pusi mod 2.
  Proof. exact (field_layout (firstn 2 fs) 1 pusi (skipn 3 fs) rest eq_refl). Qed.
  Lemma f_pid : field ts 11 13 = pid mod 8192.
  Proof. exact (field_layout (firstn 4 fs) 13 pid (skipn 5 fs) rest eq_refl). Qed.
  Lemma f_tsc : field ts 24 2 = tsc mod 4.
  Proof. exact (field_layout (firstn 5 fs) 2 tsc (skipn 6 fs) rest eq_refl). Qed.
  Lemma f_af : field ts 26 1 = af mod 2.
  Proof. exact (field_layout (firstn 6 fs) 1 af (skipn 7 fs) rest eq_refl). Qed.
  Lemma f_pl : field ts 27 1 = pl mod 2.
  Proof. exact (field_layout (firstn 7 fs) 1 pl (skipn 8 fs) rest eq_refl). Qed.
  Lemma f_cc : field ts 28 4 = cc mod 16.
  Proof. exact (field_layout (firstn 8 fs) 4 cc (skipn 9 fs) rest eq_refl). Qed.
End Fields.

Lemma getters_of_table sync tei pusi prio pid tsc af pl cc rest :
  bytes rest ->
  let ts := ts_header sync tei pusi prio pid tsc af pl cc ++ rest in
  is_sync ts = Ok (sync mod 256 =? 0x47) /\
  is_error ts = Ok (negb (tei mod 2 =? 0)) /\
  is_pusi ts = Ok (negb (pusi mod 2 =? 0)) /\
  get_pid ts = Ok (pid mod 8192) /\
  is_scrambled ts = Ok (negb (tsc mod 4 =? 0)) /\
  is_adaptation ts = Ok (negb (af mod 2 =? 0)) /\
  is_payload ts = Ok (negb (pl mod 2 =? 0)) /\
  get_cc ts = Ok (cc mod 16).
Proof.
  intros Hr ts.
  pose proof (header_getters ts (header_len _ _ _ _ _ _ _ _ _ _) (header_bytes _ _ _ _ _ _ _ _ _ _ Hr)) as H.
  unfold flag in H. unfold ts in *.
  rewrite f_sync, f_tei, f_pusi, f_pid, f_tsc, f_af, f_pl, f_cc in H. exact H.
Qed.

Lemma setters m sync tei pusi prio pid tsc af pl cc rest v :
  let ts := ts_header sync tei pusi prio pid tsc af pl cc ++ rest in
  (v < 8192 -> set_pid m ts v = Ok (ts_header sync tei pusi prio v tsc af pl cc ++ rest)) /\
  (v < 16 -> set_cc m ts v = Ok (ts_header sync tei pusi prio pid tsc af pl v ++ rest)) /\
  set_payload_0 ts = Ok (ts_header sync tei pusi prio pid tsc af 0 cc ++ rest) /\
  set_payload_1 ts = Ok (ts_header sync tei pusi prio pid tsc af 1 cc ++ rest) /\
  set_pusi_0 ts = Ok (ts_header sync tei 0 prio pid tsc af pl cc ++ rest) /\
  set_pusi_1 ts = Ok (ts_header sync tei 1 prio pid tsc af pl cc ++ rest).
Proof.
  intros ts. repeat split; unfold ts.
  - apply set_pid_spec.
  - apply set_cc_spec.
  - apply set_payload_0_spec.
  - apply set_payload_1_spec.
  - apply set_pusi_0_spec.
  - apply set_pusi_1_spec.
Qed.

Lemma null_packet :
  length NULL_PACKET = 188%nat /\ is_sync NULL_PACKET = Ok true /\ get_pid NULL_PACKET = Ok PID_NULL /\
  is_payload NULL_PACKET = Ok true /\ is_adaptation NULL_PACKET = Ok false /\ PID_NULL = 0x1FFF.
Proof. repeat split; reflexivity. Qed.

Lemma set_get m ts v : (4 <= length ts)%nat -> bytes ts ->
  (v < 8192 -> (ts' <- set_pid m ts v ;; get_pid ts') = Ok v) /\
  (v < 16 -> (ts' <- set_cc m ts v ;; get_cc ts') = Ok v) /\
  (ts' <- set_payload_0 ts ;; is_payload ts') = Ok false /\
  (ts' <- set_payload_1 ts ;; is_payload ts') = Ok true /\
  (ts' <- set_pusi_0 ts ;; is_pusi ts') = Ok false /\
  (ts' <- set_pusi_1 ts ;; is_pusi ts') = Ok true.
Proof.
  intros Hl Hb. rewrite (ts_header_complete ts Hl Hb).
  assert (Hr : bytes (skipn 4 ts)) by (apply bytes_skipn; assumption).
  generalize (field ts 0 8) (field ts 8 1) (field ts 9 1) (field ts 10 1) (field ts 11 13)
    (field ts 24 2) (field ts 26 1) (field ts 27 1) (field ts 28 4).
  generalize dependent (skipn 4 ts). clear ts Hl Hb. intros rest Hr f1 f2 f3 f4 f5 f6 f7 f8 f9.
  repeat split; intros.
  - rewrite set_pid_spec by assumption. cbn [bind].
    destruct (getters_of_table f1 f2 f3 f4 v f6 f7 f8 f9 rest Hr) as (_ & _ & _ & E & _).
    rewrite E. rewrite N.mod_small by assumption. reflexivity.
  - rewrite set_cc_spec by assumption. cbn [bind].
    destruct (getters_of_table f1 f2 f3 f4 f5 f6 f7 f8 v rest Hr) as (_ & _ & _ & _ & _ & _ & _ & E).
    rewrite E. rewrite N.mod_small by assumption. reflexivity.
  - rewrite set_payload_0_spec. cbn [bind].
    destruct (getters_of_table f1 f2 f3 f4 f5 f6 f7 0 f9 rest Hr) as (_ & _ & _ & _ & _ & _ & E & _). exact E.
  - rewrite set_payload_1_spec. cbn [bind].
    destruct (getters_of_table f1 f2 f3 f4 f5 f6 f7 1 f9 rest Hr) as (_ & _ & _ & _ & _ & _ & E & _). exact E.
  - rewrite set_pusi_0_spec. cbn [bind].
    destruct (getters_of_table f1 f2 0 f4 f5 f6 f7 f8 f9 rest Hr) as (_ & _ & E & _). exact E.
  - rewrite set_pusi_1_spec. cbn [bind].
    destruct (getters_of_table f1 f2 1 f4 f5 f6 f7 f8 f9 rest Hr) as (_ & _ & E & _). exact E.
Qed.

Lemma out_of_range ts v : (4 <= length ts)%nat -> bytes ts ->
  (8192 <= v -> set_pid Debug ts v = Panic) /\ (16 <= v -> set_cc Debug ts v = Panic) /\
  (ts' <- set_cc Release ts v ;; get_cc ts') = Ok (v mod 16) /\
  (v < 65536 -> (ts' <- set_pid Release ts v ;; get_pid ts') = Ok (v mod 8192)).
Proof.
  intros Hl Hb. repeat split.
  - intros H. unfold set_pid, dassert. apply N.ltb_ge in H. rewrite H. reflexivity.
  - intros H. unfold set_cc, dassert. apply N.ltb_ge in H. rewrite H. reflexivity.
  - peel ts 4%nat Hl. dbytes. unfold set_cc, get_cc.
    cbn [dassert bind get set nth_error Nat.ltb Nat.leb length firstn skipn app].
    f_equal. blast_pre 4%nat.
    { apply land_lt_r. reflexivity. }
    { apply N.mod_lt. discriminate. }
    all: bool_cases.
  - intros Hv. peel ts 4%nat Hl. dbytes. unfold set_pid, get_pid.
    cbn [dassert bind get set nth_error Nat.ltb Nat.leb length firstn skipn app].
    f_equal. unfold shlw, cast, U8, U16. blast_pre 16%nat.
    { apply (lor_lt 16); [apply N.mod_lt; discriminate|].
      apply N.lt_trans with 256; [apply N.mod_lt; discriminate|reflexivity]. }
    { apply N.lt_trans with 8192; [apply N.mod_lt; discriminate|reflexivity]. }
    all: bool_cases.
Qed.

Lemma set_pid_release_leak : exists ts v, (4 <= length ts)%nat /\ bytes ts /\ v < 65536 /\
  is_error ts = Ok false /\ (ts' <- set_pid Release ts v ;; is_error ts') = Ok true.
Proof.
  exists [0x47; 0; 0; 0x10], 0x8000. repeat split; try reflexivity.
  apply bytesb_iff. reflexivity.
Qed.

Lemma payload_offset_doc :
  (exists ts, length ts = 188%nat /\ bytes ts /\ is_payload ts = Ok false /\
     forall m, get_payload_offset m ts = Ok 4) /\
  (exists ts, length ts = 188%nat /\ bytes ts /\ field ts 32 8 = 184 /\
     forall m, get_payload_offset m ts = Ok 189) /\
  (exists ts, length ts = 188%nat /\ bytes ts /\ field ts 32 8 = 255 /\
     get_payload_offset Debug ts = Panic /\ get_payload_offset Release ts = Ok 4).
Proof.
  repeat split.
  - exists (0x47 :: repeat 0 187). repeat split; try reflexivity. apply bytesb_iff; reflexivity.
  - exists (0x47 :: 0 :: 0 :: 0x30 :: 184 :: repeat 0 183). repeat split; try reflexivity.
    apply bytesb_iff; reflexivity.
  - exists (0x47 :: 0 :: 0 :: 0x30 :: 255 :: repeat 0 183). repeat split; try reflexivity.
    apply bytesb_iff; reflexivity.
Qed.

Lemma pcr_short m p pcr : (length p < 12)%nat -> set_pcr p pcr = Panic /\ get_pcr m p = Panic.
Proof. intros H. split; [apply set_pcr_panic | apply get_pcr_panic]; assumption. Qed.

Lemma pcr_bound : PCR_MAX = 2 ^ 33 * 300 - 1 /\ forall m,
  (q <- set_pcr (repeat 0 188) (PCR_MAX + 1) ;; get_pcr m q) = Ok 0.
Proof. split; [reflexivity|]. intros []; vm_compute; reflexivity. Qed.

Lemma pcr_inside m p : length p = 188%nat -> bytes p -> is_pcr p = Ok true ->
  (11 <= 4 + N.to_nat (field p 32 8))%nat /\ exists v, get_pcr m p = Ok v.
Proof.
  intros Hl Hb H. rewrite is_pcr_spec in H by (try assumption; lia).
  assert (E : flag p 26 && (7 <=? field p 32 8) && flag p 43 = true) by congruence.
  apply andb_true_iff in E. destruct E as [E _]. apply andb_true_iff in E. destruct E as [_ E].
  split; [lia|]. rewrite get_pcr_spec by (try assumption; lia). eauto.
Qed.

Lemma pcr_delta_modular m a b : a <= PCR_MAX -> b <= PCR_MAX ->
  exists d, pcr_delta m a b = Ok d /\
    (Z.of_N d + (if (b <? a)%N then 1 else 0) = (Z.of_N b - Z.of_N a) mod (2 ^ 33 * 300))%Z.
Proof.
  intros Ha Hb. destruct (pcr_delta_spec m a b Ha Hb) as (d & E & Hd & H1 & H2).
  exists d. split; [assumption|]. change (2 ^ 33 * 300)%Z with 2576980377600%Z.
  change PCR_MAX with 2576980377599 in *. change PCR_NONE with 2576980377600 in *.
  destruct (N.ltb_spec b a) as [H|H].
  - specialize (H2 H). rewrite <- (Z.mod_add _ 1) by discriminate.
    rewrite Z.mod_small by lia. lia.
  - specialize (H1 H). rewrite Z.mod_small by lia. lia.
Qed.

Lemma pcr_delta_wrong : exists a b, a <= PCR_MAX /\ b <= PCR_MAX /\
  forall m, exists d, pcr_delta m a b = Ok d /\ (Z.of_N d <> (Z.of_N b - Z.of_N a) mod (2 ^ 33 * 300))%Z.
Proof.
  exists PCR_MAX, 0. split; [lia|]. split; [vm_compute; discriminate|].
  intros m. exists 0. split; [destruct m; reflexivity|]. vm_compute. discriminate.
Qed.

Lemma pts_delta_wrong : exists a b, a <= PTS_MAX /\ b <= PTS_MAX /\
  forall m, exists d, pts_delta m a b = Ok d /\ (Z.of_N d <> (Z.of_N b - Z.of_N a) mod (2 ^ 33))%Z.
Proof.
  exists PTS_MAX, 0. split; [lia|]. split; [vm_compute; discriminate|].
  intros m. exists 0. split; [destruct m; reflexivity|]. vm_compute. discriminate.
Qed.

Lemma jitter_zero m pcr : pcr < U64 -> pcr_jitter_ns m pcr pcr = Ok 0%Z.
Proof.
  intros _. unfold pcr_jitter_ns. rewrite N.ltb_irrefl. rewrite N.sub_diag. destruct m; reflexivity.
Qed.

Lemma pts_panic p :
  (get_pts p = Panic <-> (length p < 14)%nat) /\ (get_dts p = Panic <-> (length p < 19)%nat).
Proof. split; [apply get_pts_panic | apply get_dts_panic]. Qed.

Lemma pes_accessors m p : (9 <= length p)%nat -> bytes p ->
  is_prefix p = Ok (field p 0 24 =? 1) /\
  is_syntax_spec p = Ok (negb (existsb (N.eqb (field p 24 8)) no_optional_header)) /\
  pes_get_length m p = Ok (field p 32 16) /\
  is_pts p = Ok (flag p 56) /\
  is_dts p = Ok (flag p 57) /\
  pes_get_payload_offset m p =
    Ok (if existsb (N.eqb (field p 24 8)) no_optional_header then 6 else 9 + field p 64 8).
Proof.
  intros Hl Hb. repeat split.
  - apply is_prefix_spec; [lia|assumption].
  - apply is_syntax_spec_spec; [lia|assumption].
  - apply pes_get_length_spec; [lia|assumption].
  - apply is_pts_spec; lia.
  - apply is_dts_spec; lia.
  - apply pes_payload_offset_spec; [lia|assumption].
Qed.

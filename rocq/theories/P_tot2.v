(** Proofs about reading a TOT from a Psi that may hold bytes behind the section. *)
From Verif Require Import Prelude Layout Facts Facts2 S_ts S_crc S_utils S_psi M_bytes M_ts M_crc M_utils M_psi M_drive M_recv M_desc S_desc
  M_tables S_tables P_bytes P_crc P_utils P_psi P_mux P_mux2 P_sect P_mux3 P_desc P_desc2 P_desc3 W_psi W_desc P_tab P_tab2 P_tab6 P_tab7.

(** the loop is taken from the whole buffer *)
Lemma tot_debug_any old p s : has p s -> tot_ids (field s 0 8) -> (14 <= length s)%nat ->
  outcome_is (tot_parse Debug old p) (tot_reads (p_buffer p)) (tot_add old).
Proof.
  intros H T L. pose proof (has_buf p s H) as Hb. pose proof (has_len p s H) as Hl.
  pose proof (tot_run Debug old p s H T L) as Er. cbv zeta in Er.
  rewrite <- !(has_field p s H) in Er by lia. set (b := p_buffer p) in *. set (n := N.to_nat (field b 68 12)) in *.
  apply outcome_intro; [eapply tot_ends; eassumption| |].
  - intros t (ds & -> & (T1 & T2) & Hn & R). fold n in Hn, R. rewrite Er.
    rewrite mjd_ok by (try assumption; apply field16_lt). cbn [bind].
    rewrite !bcd_time_ok by (try assumption; apply field24_lt). cbn [bind]. rewrite time_sum by apply field16_lt. cbn [bind].
    rewrite slice_val by lia. cbn [bind]. replace (10 + n - 10)%nat with n by lia.
    rewrite (loop_parse Debug _ ds) by (try (apply bytes_firstn, bytes_skipn, Hb); assumption). reflexivity.
  - intros u E. rewrite Er in E.
    apply bind_inv in E as (d & E1 & E). apply bind_inv in E as (t & E2 & E). apply bind_inv in E as (st & E3 & E).
    apply bind_inv in E as (l & E4 & E). apply bind_inv in E as (ds & E5 & E'). injection E' as <-.
    apply mjd_debug in E1 as [H1 ->]; [|apply (field_lt b 24 16)]. apply bcd_debug in E2 as [H2 ->]; [|apply field24_lt].
    rewrite time_sum in E3 by apply field16_lt. injection E3 as <-.
    pose proof (slice_inv _ _ _ _ E4) as L4. rewrite slice_val in E4 by lia. replace (10 + n - 10)%nat with n in E4 by lia.
    assert (l = firstn n (skipn 10 b)) by congruence. subst l.
    apply loop_debug in E5 as (ds' & -> & R2); [|apply bytes_firstn, bytes_skipn, Hb].
    eexists. split; [exists ds'; split; [reflexivity|fold n; repeat split; [assumption|assumption|lia|assumption]]|reflexivity].
Qed.
(** a loop that ends before the CRC is read from the section alone *)
Lemma tot_debug_inside old p s : has p s -> tot_ids (field s 0 8) -> (14 + N.to_nat (field s 68 12) <= length s)%nat ->
  outcome_is (tot_parse Debug old p) (tot_reads s) (tot_add old).
Proof.
  intros H T L. pose proof (tot_debug_any old p s H T ltac:(lia)) as O.
  assert (E : forall t, tot_reads (p_buffer p) t <-> tot_reads s t).
  { intros t. unfold tot_reads. rewrite !(has_field p s H) by lia. pose proof (has_len p s H).
    destruct H as (_ & _ & e & He & _).
    assert (F : firstn (N.to_nat (field s 68 12)) (skipn 10 (p_buffer p)) = firstn (N.to_nat (field s 68 12)) (skipn 10 s)).
    { rewrite He, skipn_app, firstn_app, skipn_length. replace (N.to_nat (field s 68 12) - (length s - 10))%nat with 0%nat by lia.
      cbn [firstn]. apply app_nil_r. }
    rewrite F. split; intros (ds & E1 & E2 & E3 & E4); exists ds; (split; [assumption|]); (split; [assumption|]); (split; [lia|assumption]). }
  destruct O as [O1 O2]. split.
  - intros u. rewrite O1. split; intros (t & R & Q); exists t; (split; [apply E, R|assumption]).
  - rewrite O2. split; intros N t R; apply (N t), E, R.
Qed.
Lemma tot_release_any old p s : has p s -> tot_ids (field s 0 8) -> (14 <= length s)%nat ->
  let n := N.to_nat (field s 68 12) in
  tot_parse Release old p = Panic <-> (length (p_buffer p) < 10 + n)%nat \/ loop_oob (firstn n (skipn 10 (p_buffer p))).
Proof.
  intros H T L n. rewrite (tot_run Release old p s H T L). cbv zeta. fold n.
  destruct (mjd_release (field s 24 16) (field_lt s 24 16)) as [d ->]. cbn [bind].
  destruct (bcd_release (field s 40 24) (field24_lt _ _)) as [t ->]. cbn [bind].
  destruct (addw_release U64 d t) as [st ->]. cbn [bind]. destruct (le_lt_dec (10 + n) (length (p_buffer p))) as [L2|L2].
  - rewrite slice_val by lia. replace (10 + n - 10)%nat with n by lia. cbn [bind]. rewrite bind_panic.
    rewrite (proj1 (loop_release (firstn n (skipn 10 (p_buffer p))) (tot_descs old) (bytes_firstn _ _ (bytes_skipn _ _ (has_buf p s H))))).
    split; [auto|]. intros [X|X]; [lia|assumption].
  - split; [auto|]. intros _. unfold slice. destruct (Nat.leb_spec (10 + n) (length (p_buffer p))); [lia|]. rewrite andb_false_r. reflexivity.
Qed.

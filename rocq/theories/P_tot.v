(** Proofs: TDT and TOT. *)
From Verif Require Import Prelude Layout Facts Facts2 S_ts S_crc S_utils S_psi M_bytes M_ts M_crc M_utils M_psi M_drive M_recv M_desc S_desc
  M_tables S_tables P_bytes P_crc P_utils P_psi P_mux P_mux2 P_sect P_mux3 P_desc P_desc2 P_desc3 W_psi W_desc P_tab P_tab2 P_tab3 P_tab4 P_tab5.


Ltac run_short := match goal with |- ?x = ?y =>
  let r := eval cbv [resize app length repeat firstn skipn Nat.leb Nat.ltb Nat.sub set with_buffer psi_default p_buffer p_size p_pid p_cc
                     bind set_u16_at set_u24_at set_u16 set_u24 on_from slice_from] in x in change (r = y) end.

Lemma tdt_section_spec m t : t < MJD_END -> tdt_section m t = Ok (mkPsi (tdt_bytes t) 0 0 0).
Proof.
  intros H. unfold tdt_section, tdt_bytes, short_section. destruct (day_mjd m _ H) as [-> Hd]. rewrite (clock_bcd m _ H).
  pose proof (proj2 (proj2 (clock_seconds t))) as Hc. change (2 ^ 24) with 16777216 in Hc. unfold psi_new.
  assert (E : forall b, b = true -> dassert m b = Ok tt) by (intros b ->; destruct m; reflexivity). rewrite E by reflexivity.
  generalize dependent (day t). generalize dependent (clock t). intros c Hc d Hd. cbn [bind].
  run_short. do 2 f_equal. lay. bytes_are.
Qed.

Lemma descs_bind {A} m ds b (k : list N * nat -> res A) : Forall desc_ok ds -> bind (descs_assemble m ds b) k = k (b ++ wire ds, length (wire ds)).
Proof. intros H. rewrite wire_assemble by assumption. reflexivity. Qed.

Lemma tot_section_spec m t : tot_time t < MJD_END -> loop_ok (tot_descs t) ->
  tot_section m t = Ok (mkPsi ([0x73; 0x70; 0] ++ layout [(16%nat, day (tot_time t)); (24%nat, clock (tot_time t)); (4%nat, 15); (12%nat, wlen (tot_descs t))]
    ++ wire (tot_descs t)) 0 0 0).
Proof.
  intros H [HD HL]. unfold tot_section. destruct (day_mjd m _ H) as [-> Hd]. rewrite (clock_bcd m _ H).
  pose proof (proj2 (proj2 (clock_seconds (tot_time t)))) as Hc. change (2 ^ 24) with 16777216 in Hc. unfold psi_new, wlen.
  assert (E : forall b, b = true -> dassert m b = Ok tt) by (intros b ->; destruct m; reflexivity). rewrite E by reflexivity.
  generalize dependent (day (tot_time t)). generalize dependent (clock (tot_time t)). intros c Hc d Hd. cbn [bind].
  match goal with |- ?x = ?y =>
  let r := eval cbv [resize app length repeat firstn skipn Nat.leb Nat.ltb Nat.sub set with_buffer psi_default p_buffer p_size p_pid p_cc
                     set_u16_at set_u24_at set_u16 set_u24 on_from slice_from] in x in change (r = y) end.
  cbn [bind].
  rewrite descs_bind by assumption. set (w := wire (tot_descs t)) in *. assert (Hl : N.of_nat (length w) < 4096) by lia.
  generalize dependent (N.of_nat (length w)). intros n Hn. clearbody w.
  run_short. do 2 f_equal. lay. cbn [app]. bytes_are.
Qed.

Lemma send_sized m s pid cc dst : pid < 8192 -> cc < 16 -> bytes s -> s <> [] ->
  exists q, psi_demux m (mkPsi s (length s) pid cc) dst = Ok (q, dst ++ concat (stream pid cc [s])) /\ p_cc q = next_cc pid cc [s].
Proof.
  intros Hp Hc Hb Hn. destruct (send_one m (mkPsi s (length s) 0 0) pid cc dst s Hp Hc eq_refl eq_refl Hb Hn) as (q & E & Eq).
  exists q. cbn [stream]. rewrite app_nil_r. split; [exact E|]. rewrite Eq. unfold next_cc. cbn [stream]. rewrite app_nil_r. reflexivity.
Qed.

Lemma tot_finished t : let b := [0x73; 0x70; 0] ++ layout [(16%nat, day (tot_time t)); (24%nat, clock (tot_time t)); (4%nat, 15); (12%nat, wlen (tot_descs t))]
    ++ wire (tot_descs t) in finished b = tot_bytes t.
Proof.
  cbv zeta. unfold finished, tot_bytes, short_section. cbv zeta.
  set (r := layout [(16%nat, day (tot_time t)); (24%nat, clock (tot_time t)); (4%nat, 15); (12%nat, wlen (tot_descs t))] ++ wire (tot_descs t)).
  assert (L : length r = (7 + length (wire (tot_descs t)))%nat) by (subst r; rewrite app_length, layout_length by reflexivity; reflexivity).
  cbn [app]. rewrite field_8_4 by lia. cbn [firstn skipn length app]. rewrite L.
  replace (S (S (S (7 + length (wire (tot_descs t))))) + 1)%nat with (length (wire (tot_descs t)) + 11)%nat by lia.
  generalize (N.of_nat (length (wire (tot_descs t)) + 11)). intros n.
  assert (E : 0x73 :: layout [(4%nat, 112 / 16); (12%nat, n)] = layout [(8%nat, 0x73); (1%nat, 0); (1%nat, 1); (2%nat, 3); (12%nat, n)]).
  { change (112 / 16) with 7. lay. reflexivity. }
  rewrite <- E. reflexivity.
Qed.
Lemma tot_demux_spec m t pid cc dst : tot_time t < MJD_END -> loop_ok (tot_descs t) -> (length (wire (tot_descs t)) <= N.to_nat 4084)%nat ->
  pid < 8192 -> cc < 16 ->
  tot_demux m t pid cc dst = Ok (next_cc pid cc [tot_bytes t], dst ++ concat (stream pid cc [tot_bytes t])) /\ section_ok (tot_bytes t).
Proof.
  intros H HD L Hp Hc. unfold tot_demux. rewrite tot_section_spec by assumption. cbn [bind]. rewrite <- tot_finished.
  match goal with |- context [mkPsi ?x 0 0 0] => set (b := x) end.
  assert (Lb : length b = (10 + length (wire (tot_descs t)))%nat) by (subst b; rewrite !app_length, layout_length by reflexivity; tw; cbn [length]; lia).
  assert (Bb : bytes b).
  { subst b. apply bytes_app. split; [repeat constructor|]. apply bytes_app. split; [apply layout_bytes|apply wire_bytes, HD]. }
  rewrite finalize_new; [|reflexivity|exact Bb|cbn [p_buffer]; lia]. cbn [bind p_buffer p_pid p_cc].
  pose proof (finished_ok b Bb ltac:(lia)) as K.
  destruct (send_sized m (finished b) pid cc dst Hp Hc (proj1 K)) as (q & E & Eq).
  { destruct K as (_ & _ & H8 & _). intros Z. rewrite Z in H8. cbn [length] in H8. lia. }
  rewrite E. cbn [bind]. rewrite Eq. split; [reflexivity|exact K].
Qed.

Lemma tot_app t : exists h c, length h = 3%nat /\ tot_bytes t = h ++ (layout [(16%nat, day (tot_time t)); (24%nat, clock (tot_time t)); (4%nat, 15); (12%nat, wlen (tot_descs t))]
    ++ wire (tot_descs t)) ++ c /\ length c = 4%nat /\ field (tot_bytes t) 0 8 = 0x73.
Proof.
  unfold tot_bytes, short_section. cbv zeta. eexists. eexists. split; [|split; [rewrite <- app_assoc; reflexivity|split; [apply to_be_length|]]].
  - apply layout_length. reflexivity.
  - rewrite <- app_assoc. erewrite field_at; [|reflexivity|reflexivity]. reflexivity.
Qed.
Lemma tot_back t : tot_time t < MJD_END -> loop_ok (tot_descs t) -> loop_exact (tot_descs t) -> tot_reads (tot_bytes t) t.
Proof.
  intros H HD HE. destruct (tot_app t) as (h & c & Lh & -> & Lc & _). pose proof (day_lt _ H) as D. pose proof (clock_seconds (tot_time t)) as (_ & C2 & C3).
  pose proof (flen _ HD) as W. unfold tot_reads. cbv zeta.
  assert (FF : forall off w v, (off + w <= 56)%nat ->
    lookup [(16%nat, day (tot_time t)); (24%nat, clock (tot_time t)); (4%nat, 15); (12%nat, wlen (tot_descs t))] off w = Some v -> v < 2 ^ N.of_nat w ->
    field (h ++ (layout [(16%nat, day (tot_time t)); (24%nat, clock (tot_time t)); (4%nat, 15); (12%nat, wlen (tot_descs t))] ++ wire (tot_descs t)) ++ c) (24 + off) w = v).
  { intros off w v Ho Hl Hv. replace (24 + off)%nat with (8 * length h + off)%nat by (rewrite Lh; lia). rewrite field_app, <- app_assoc.
    rewrite (field_at _ _ off w v) by (try assumption; reflexivity). apply N.mod_small. assumption. }
  pose proof (FF 0 16 _ ltac:(lia) eq_refl D)%nat as F1. pose proof (FF 16 24 _ ltac:(lia) eq_refl C3)%nat as F2. pose proof (FF 44 12 _ ltac:(lia) eq_refl W)%nat as F3.
  cbn [Nat.add] in F1, F2, F3. rewrite F1, F2, F3, clock_time. rewrite (wnat _ HD).
  exists (tot_descs t). split; [destruct t; reflexivity|]. split; [apply clock_ok|].
  split; [rewrite !app_length, layout_length, Lh, Lc by reflexivity; tw; lia|].
  change 10%nat with (3 + 7)%nat. rewrite skipn_plus, (skipn_len_app 3) by assumption. rewrite <- app_assoc. skip_head 7%nat.
  rewrite (firstn_len_app (length (wire (tot_descs t)))) by reflexivity. apply wire_reads; [apply HD|assumption].
Qed.
Lemma tot_recover m t old : tot_time t < MJD_END -> loop_ok (tot_descs t) -> loop_exact (tot_descs t) -> section_ok (tot_bytes t) ->
  parse_sections (tot_parse m) old [tot_bytes t] = Ok (tot_add old t).
Proof.
  intros H HD HE K. cbn [parse_sections]. destruct (tot_app t) as (h & c & Lh & E & Lc & T).
  rewrite (tot_parse_section m old _ (tot_bytes t) t); [reflexivity|apply has_alone; assumption|exact T| |apply tot_back; assumption].
  rewrite E, !app_length, layout_length, Lh, Lc by reflexivity. tw. lia.
Qed.

(** ** TDT: no CRC, one packet *)
Lemma tdt_facts t : t < MJD_END -> length (tdt_bytes t) = 8%nat /\ bytes (tdt_bytes t) /\ section_length (tdt_bytes t) = 8%nat /\
  field (tdt_bytes t) 0 8 = 0x70 /\ tdt_reads (tdt_bytes t) t.
Proof.
  intros H. unfold tdt_bytes, short_section. pose proof (day_lt _ H) as D. pose proof (clock_seconds t) as (_ & C2 & C3).
  assert (E : layout [(8%nat, 112); (1%nat, 0); (1%nat, 1); (2%nat, 3); (12%nat, 5)] ++ layout [(16%nat, day t); (24%nat, clock t)] =
              layout [(8%nat, 112); (1%nat, 0); (1%nat, 1); (2%nat, 3); (12%nat, 5); (16%nat, day t); (24%nat, clock t)]).
  { symmetry. apply (layout_app [(8%nat, 112); (1%nat, 0); (1%nat, 1); (2%nat, 3); (12%nat, 5)]). reflexivity. }
  rewrite E. set (l := [(8%nat, 112); (1%nat, 0); (1%nat, 1); (2%nat, 3); (12%nat, 5); (16%nat, day t); (24%nat, clock t)]).
  split; [apply layout_length; reflexivity|]. split; [apply layout_bytes|].
  split; [unfold section_length; rewrite (field_val l 12 12 5) by reflexivity; reflexivity|].
  split; [apply field_val; reflexivity|]. unfold tdt_reads.
  rewrite (field_val l 24 16 (day t)) by (try reflexivity; exact D). rewrite (field_val l 40 24 (clock t)) by (try reflexivity; exact C3).
  rewrite clock_time. split; [reflexivity|apply clock_ok].
Qed.
Lemma tdt_demux_spec m t pid cc dst : t < MJD_END -> pid < 8192 -> cc < 16 ->
  tdt_demux m t pid cc dst = Ok (next_cc pid cc [tdt_bytes t], dst ++ concat (stream pid cc [tdt_bytes t])).
Proof.
  intros H Hp Hc. unfold tdt_demux. rewrite tdt_section_spec by assumption. cbn [bind p_buffer].
  destruct (tdt_facts t H) as (L & B & _). destruct (send_sized m (tdt_bytes t) pid cc dst Hp Hc B) as (q & E & Eq).
  { intros Z. rewrite Z in L. discriminate. }
  rewrite E. cbn [bind]. rewrite Eq. reflexivity.
Qed.
Lemma tdt_receive m t pid cc p old : t < MJD_END -> cc < 16 ->
  exists q, receive m (tdt_parse m) p old (stream pid cc [tdt_bytes t]) = Ok (q, t).
Proof.
  intros H Hc. destruct (tdt_facts t H) as (L & B & SL & T & R).
  destruct (mux_prefix m p pid cc (tdt_bytes t) 1 B Hc) as (q & M & _ & _ & st & Hh); [rewrite L; cbn; lia|].
  rewrite L in Hh. change (1 =? S (8 / 184))%nat with true in Hh. cbn iota in Hh.
  pose proof (section_packets_length pid cc (tdt_bytes t) B) as PL. rewrite L in PL. change (S (8 / 184))%nat with 1%nat in PL.
  cbn [stream]. rewrite app_nil_r. destruct (section_packets pid cc (tdt_bytes t)) as [|x [|y l]]; try discriminate.
  cbn [firstn mux_all] in M. apply bind_inv in M as (q' & M & E). injection E as ->. cbn [receive]. rewrite M. cbn [bind].
  destruct Hh as [Hh _]. destruct Hh as [Hz Hbuf]; [rewrite app_length; lia|]. rewrite section_length_app in Hz, Hbuf by lia. rewrite SL in *.
  rewrite (firstn_len_app 8) in Hbuf by assumption.
  rewrite (tdt_parse_section m old q (tdt_bytes t) t); try assumption; [exists q; reflexivity|rewrite Hbuf; assumption|rewrite Hbuf, L; lia|].
  rewrite Hbuf, <- L, firstn_all. reflexivity.
Qed.

(** Proofs: what is sent is what is read (S_tables), and reception of whole tables. *)
From Verif Require Import Prelude Layout Facts Facts2 S_ts S_crc S_utils S_psi M_bytes M_ts M_crc M_utils M_psi M_drive M_recv M_desc S_desc
  M_tables S_tables P_bytes P_crc P_utils P_psi P_mux P_mux2 P_sect P_mux3 P_desc P_desc2 P_desc3 W_psi W_desc P_tab P_tab2 P_tab3.

(** ** fields of a section *)
Lemma section_app table dvb ident version num last rest : exists h c, length h = 8%nat /\ length c = 4%nat /\
  section table dvb ident version num last rest = h ++ rest ++ c /\
  h = layout [(8%nat, table); (1%nat, 1); (1%nat, dvb); (2%nat, 3); (12%nat, N.of_nat (length rest + 9));
              (16%nat, ident); (2%nat, 3); (5%nat, version); (1%nat, 1); (8%nat, num); (8%nat, last)].
Proof.
  unfold section. cbv zeta. eexists. eexists. split; [|split; [|split; [rewrite <- app_assoc; reflexivity|reflexivity]]].
  - rewrite layout_length by reflexivity. tw. reflexivity.
  - apply to_be_length.
Qed.
Lemma section_head table dvb ident version num last rest : table < 2 ^ 8 -> ident < 2 ^ 16 -> version < 2 ^ 5 ->
  let s := section table dvb ident version num last rest in
  field s 0 8 = table /\ field s 24 16 = ident /\ field s 42 5 = version.
Proof.
  intros Ht Hi Hv s. subst s. unfold section. cbv zeta. rewrite <- app_assoc.
  repeat split; (erewrite field_at; [|reflexivity|reflexivity]); apply N.mod_small; assumption.
Qed.
Lemma section_field table dvb ident version num last rest k off w : k = (64 + off)%nat -> (off + w <= 8 * length rest)%nat ->
  field (section table dvb ident version num last rest) k w = field rest off w.
Proof.
  intros -> H. destruct (section_app table dvb ident version num last rest) as (h & c & Lh & _ & -> & _).
  replace (64 + off)%nat with (8 * length h + off)%nat by lia. rewrite field_app. apply field_prefix. assumption.
Qed.
Lemma section_inner table dvb ident version num last rest a k : a = (8 + k)%nat -> (k <= length rest)%nat ->
  inner a (section table dvb ident version num last rest) = skipn k rest.
Proof.
  intros -> Hk. destruct (section_app table dvb ident version num last rest) as (h & c & Lh & Lc & -> & _). unfold inner.
  rewrite !app_length, Lh, Lc. rewrite skipn_plus, skipn_len_app by assumption.
  rewrite skipn_app. replace (k - length rest)%nat with 0%nat by lia. cbn [skipn].
  apply firstn_len_app. rewrite skipn_length. lia.
Qed.
Lemma section_slice table dvb ident version num last rest a k n : a = (8 + k)%nat -> (k + n <= length rest)%nat ->
  firstn n (skipn a (section table dvb ident version num last rest)) = firstn n (skipn k rest).
Proof.
  intros -> Hk. destruct (section_app table dvb ident version num last rest) as (h & c & Lh & Lc & -> & _).
  rewrite skipn_plus, skipn_len_app by assumption.
  rewrite skipn_app. replace (k - length rest)%nat with 0%nat by lia. cbn [skipn].
  rewrite firstn_app, skipn_length. replace (n - (length rest - k))%nat with 0%nat by lia. cbn [firstn]. apply app_nil_r.
Qed.

(** ** loops and entries *)
Lemma wire_reads ds : Forall desc_ok ds -> loop_exact ds -> loop_reads (wire ds) ds.
Proof.
  intros F E. exists (map (fun d => (desc_tag d, body d)) ds), []. split; [rewrite app_nil_r; reflexivity|]. split; [left; cbn [length]; lia|].
  induction ds as [|d ds IH]; [constructor|]. inversion F; inversion E; subst. cbn [map]. constructor; [|apply IH; assumption].
  cbn [fst snd]. apply body_reads; assumption.
Qed.

Lemma entries_back {A} h (w : A -> list N) rd items : (0 < h)%nat ->
  Forall (fun i => entry h (w i) /\ rd (w i) i) items -> entries_read h rd (flat_map w items) items.
Proof.
  intros Hh F. exists (map w items), []. split; [rewrite app_nil_r; apply flat_map_concat_map|]. split; [left; cbn [length]; lia|].
  split; [|]; induction F as [|i items [H1 H2] _ IH]; cbn [map]; constructor; assumption.
Qed.

Lemma layout_entry fs h ds : (total_width fs = 8 * h - 12)%nat -> (12 <= 8 * h)%nat -> loop_ok ds ->
  entry h (layout (fs ++ [(12%nat, wlen ds)]) ++ wire ds).
Proof.
  intros Hf Hh [_ Hl].
  assert (TW : total_width (fs ++ [(12%nat, wlen ds)]) = (8 * h)%nat).
  { unfold total_width in *. rewrite fold_right_app. cbn [fold_right fst]. clear Hl.
    assert (G : forall l a, fold_right (fun f n => (fst f + n)%nat) a l = (fold_right (fun (f : nat * N) n => (fst f + n)%nat) 0 l + a)%nat).
    { clear. induction l as [|x l IH]; intros a; cbn [fold_right]; [lia|]. rewrite IH. lia. }
    rewrite G. lia. }
  assert (M : (total_width (fs ++ [(12%nat, wlen ds)]) mod 8 = 0)%nat) by (rewrite TW, Nat.mul_comm; apply Nat.mod_mul; lia).
  assert (L : length (layout (fs ++ [(12%nat, wlen ds)])) = h) by (rewrite layout_length, TW, Nat.mul_comm, Nat.div_mul; lia).
  unfold entry, entry_len. rewrite app_length, L. split; [lia|]. f_equal.
  rewrite <- Hf. rewrite (field_layout fs 12 (wlen ds) []) by assumption.
  rewrite N.mod_small by (unfold wlen; change (2 ^ N.of_nat 12) with 4096; lia). symmetry. apply Nat2N.id.
Qed.

Definition item_exact {A} (ds : A -> list desc) (i : A) : Prop := loop_exact (ds i).

Lemma flen ds : loop_ok ds -> wlen ds < 2 ^ N.of_nat 12.
Proof. intros [_ H]. unfold wlen. change (2 ^ N.of_nat 12) with 4096. lia. Qed.
Ltac fv := (erewrite field_at; [|reflexivity|reflexivity]); rewrite N.mod_small; [|first [assumption|reflexivity]]; reflexivity.
Ltac skip_head n := rewrite (skipn_len_app n) by (apply layout_length; reflexivity).

Lemma pmt_entry_back i : pmt_item_ok i -> loop_exact (pmti_descs i) -> entry 5 (pmt_entry i) /\ pmt_read (pmt_entry i) i.
Proof.
  intros (H1 & H2 & H3) E. split; [apply (layout_entry [(8%nat, pmti_type i); (3%nat, 7); (13%nat, pmti_pid i); (4%nat, 15)] 5); [reflexivity|lia|assumption]|].
  exists (pmti_descs i). unfold pmt_entry. split; [|skip_head 5%nat; apply wire_reads; [apply H3|assumption]].
  destruct i as [a b ds]. cbn [pmti_type pmti_pid pmti_descs] in *. f_equal; symmetry; fv.
Qed.
Lemma nit_entry_back i : nit_item_ok i -> loop_exact (niti_descs i) -> entry 6 (nit_entry i) /\ nit_read (nit_entry i) i.
Proof.
  intros (H1 & H2 & H3) E. split; [apply (layout_entry [(16%nat, niti_tsid i); (16%nat, niti_onid i); (4%nat, 15)] 6); [reflexivity|lia|assumption]|].
  exists (niti_descs i). unfold nit_entry. split; [|skip_head 6%nat; apply wire_reads; [apply H3|assumption]].
  destruct i as [a b ds]. cbn [niti_tsid niti_onid niti_descs] in *. f_equal; symmetry; fv.
Qed.
Lemma sdt_entry_back i : sdt_item_ok i -> loop_exact (sdti_descs i) -> entry 5 (sdt_entry i) /\ sdt_read (sdt_entry i) i.
Proof.
  intros (H1 & H2 & H3 & H4 & H5 & H6) E.
  split; [apply (layout_entry [(16%nat, sdti_pnr i); (6%nat, 63); (1%nat, sdti_sched i); (1%nat, sdti_pf i); (3%nat, sdti_status i); (1%nat, sdti_ca i)] 5); [reflexivity|lia|assumption]|].
  exists (sdti_descs i). unfold sdt_entry. split; [|skip_head 5%nat; apply wire_reads; [apply H6|assumption]].
  destruct i as [a b c d e ds]. cbn [sdti_pnr sdti_sched sdti_pf sdti_status sdti_ca sdti_descs] in *. f_equal; symmetry; fv.
Qed.
Lemma clock_seconds t : seconds (clock t) = t mod 86400 /\ nibs_ok 6 (clock t) = true /\ clock t < 2 ^ 24.
Proof.
  unfold clock. pose proof (N.mod_lt (t / 3600) 24 ltac:(lia)). pose proof (N.mod_lt (t / 60) 60 ltac:(lia)). pose proof (N.mod_lt t 60 ltac:(lia)).
  destruct (seconds_hms (t / 3600 mod 24) (t / 60 mod 60) (t mod 60)) as [E F]; try lia. rewrite E. split; [|split; [exact F|apply hms_lt; lia]].
  clear. dlia.
Qed.
Lemma clock_time t : time_at (day t) (clock t) = t.
Proof. unfold time_at, day. rewrite (proj1 (clock_seconds t)). rewrite (N.add_comm MJD_EPOCH), N.add_sub. clear. dlia. Qed.
Lemma clock_ok t : time_ok (day t) (clock t).
Proof. split; [unfold day; lia|]. apply clock_seconds. Qed.
Lemma day_lt t : t < MJD_END -> day t < 2 ^ 16.
Proof. intros H. apply (day_mjd Debug t H). Qed.

Lemma eit_entry_back i : eit_item_ok i -> loop_exact (eiti_descs i) -> entry 12 (eit_entry i) /\ eit_read (eit_entry i) i.
Proof.
  intros (H1 & H2 & H3 & H4 & H5 & H6) E.
  split; [apply (layout_entry [(16%nat, eiti_id i); (16%nat, day (eiti_start i)); (24%nat, clock (eiti_start i)); (24%nat, clock (eiti_duration i));
          (3%nat, eiti_status i); (1%nat, eiti_ca i)] 12); [reflexivity|lia|assumption]|].
  exists (eiti_descs i). unfold eit_entry.
  pose proof (day_lt _ H2) as Hd. pose proof (clock_seconds (eiti_start i)) as (_ & C2 & C3). pose proof (clock_seconds (eiti_duration i)) as (D1 & D2 & D3).
  match goal with |- context [layout ?fs ++ ?w] => set (r := layout fs ++ w) end.
  assert (F1 : field r 16 16 = day (eiti_start i)) by (subst r; fv).
  assert (F2 : field r 32 24 = clock (eiti_start i)) by (subst r; fv).
  assert (F3 : field r 56 24 = clock (eiti_duration i)) by (subst r; fv).
  assert (F4 : field r 0 16 = eiti_id i) by (subst r; fv).
  assert (F5 : field r 80 3 = eiti_status i) by (subst r; fv).
  assert (F6 : field r 83 1 = eiti_ca i) by (subst r; fv).
  rewrite F1, F2, F3, F4, F5, F6, clock_time, D1, (N.mod_small (eiti_duration i)) by assumption.
  split; [destruct i; reflexivity|]. split; [apply clock_ok|]. split; [assumption|].
  subst r. skip_head 12%nat. apply wire_reads; [apply H6|assumption].
Qed.

(** ** sections read back *)
Lemma back_all {A} h (w : A -> list N) rd (ok ex : A -> Prop) items : (0 < h)%nat ->
  (forall i, ok i -> ex i -> entry h (w i) /\ rd (w i) i) -> Forall ok items -> Forall ex items -> entries_read h rd (flat_map w items) items.
Proof.
  intros Hh H F G. apply entries_back; [assumption|]. induction F; inversion G; subst; constructor; auto.
Qed.
Lemma wnat ds : loop_ok ds -> N.to_nat (wlen ds) = length (wire ds).
Proof. intros _. apply Nat2N.id. Qed.

Lemma sdt_back t last i g : sdt_table t < 2 ^ 8 -> sdt_version t < 2 ^ 5 -> sdt_tsid t < 2 ^ 16 -> sdt_onid t < 2 ^ 16 ->
  Forall sdt_item_ok g -> Forall (item_exact sdti_descs) g ->
  sdt_reads (sdt_section t last i g) (mkSdt (sdt_table t) (sdt_version t) (sdt_tsid t) (sdt_onid t) g).
Proof.
  intros H1 H2 H3 H4 F E. exists g. unfold sdt_section.
  match goal with |- context [section ?a ?b ?c ?d ?e ?f ?r] => destruct (section_head a b c d e f r H1 H3 H2) as (E1 & E2 & E3) end.
  rewrite E1, E2, E3. rewrite (section_field _ _ _ _ _ _ _ 64 0) by (try lia; rewrite app_length, layout_length by reflexivity; tw; lia).
  split; [f_equal; symmetry; fv|].
  rewrite (section_inner _ _ _ _ _ _ _ 11 3) by (try lia; rewrite app_length, layout_length by reflexivity; tw; lia).
  skip_head 3%nat. apply (back_all _ _ _ sdt_item_ok (item_exact sdti_descs)); [lia|apply sdt_entry_back|assumption|assumption].
Qed.
Lemma eit_back t table num last sl lt g : table < 2 ^ 8 -> eit_version t < 2 ^ 5 -> eit_pnr t < 2 ^ 16 -> eit_tsid t < 2 ^ 16 -> eit_onid t < 2 ^ 16 ->
  Forall eit_item_ok g -> Forall (item_exact eiti_descs) g ->
  eit_reads (eit_section t table num last sl lt g) (mkEit table (eit_version t) (eit_pnr t) (eit_tsid t) (eit_onid t) g).
Proof.
  intros H1 H2 H3 H4 H5 F E. exists g. unfold eit_section.
  match goal with |- context [section ?a ?b ?c ?d ?e ?f ?r] => destruct (section_head a b c d e f r H1 H3 H2) as (E1 & E2 & E3) end.
  rewrite E1, E2, E3. rewrite (section_field _ _ _ _ _ _ _ 64 0), (section_field _ _ _ _ _ _ _ 80 16) by (try lia; rewrite app_length, layout_length by reflexivity; tw; lia).
  split; [f_equal; symmetry; fv|].
  rewrite (section_inner _ _ _ _ _ _ _ 14 6) by (try lia; rewrite app_length, layout_length by reflexivity; tw; lia).
  skip_head 6%nat. apply (back_all _ _ _ eit_item_ok (item_exact eiti_descs)); [lia|apply eit_entry_back|assumption|assumption].
Qed.
Lemma nit_back t last i g : let ds := if (i =? 0)%nat then nit_descs t else [] in
  nit_table t < 2 ^ 8 -> nit_version t < 2 ^ 5 -> nit_network t < 2 ^ 16 -> loop_ok (nit_descs t) -> loop_exact (nit_descs t) ->
  Forall nit_item_ok g -> Forall (item_exact niti_descs) g ->
  nit_reads (nit_section t last i g) (mkNit (nit_table t) (nit_version t) (nit_network t) ds g).
Proof.
  intros ds H1 H2 H3 H4 H5 F E. unfold nit_reads. cbv zeta. exists ds, g. unfold nit_section. cbv zeta. fold ds.
  assert (D1 : loop_ok ds) by (subst ds; destruct (i =? 0)%nat; [assumption|split; [constructor|cbn; lia]]).
  assert (D2 : loop_exact ds) by (subst ds; destruct (i =? 0)%nat; [assumption|constructor]). pose proof (flen _ D1) as D3.
  match goal with |- context [section ?a ?b ?c ?d ?e ?f ?r] => destruct (section_head a b c d e f r H1 H3 H2) as (E1 & E2 & E3); pose proof (section_len a b c d e f r) as SL end.
  rewrite E1, E2, E3. rewrite (section_field _ _ _ _ _ _ _ 68 4) by (try lia; rewrite app_length, layout_length by reflexivity; tw; lia).
  replace (field (layout [(4%nat, 15); (12%nat, wlen ds)] ++ wire ds ++ layout [(4%nat, 15); (12%nat, N.of_nat (length (flat_map nit_entry g)))] ++ flat_map nit_entry g) 4 12) with (wlen ds) by (symmetry; fv).
  rewrite (wnat _ D1). split; [reflexivity|].
  rewrite !app_length, !layout_length in SL by reflexivity. tw. rewrite SL. split; [lia|].
  rewrite (section_slice _ _ _ _ _ _ _ 10 2) by (rewrite ?app_length, ?layout_length by reflexivity; tw; lia).
  skip_head 2%nat. rewrite (firstn_len_app (length (wire ds))) by reflexivity. split; [apply wire_reads; [apply D1|assumption]|].
  rewrite (section_inner _ _ _ _ _ _ _ _ (2 + (length (wire ds) + 2))) by (rewrite ?app_length, ?layout_length by reflexivity; tw; lia).
  rewrite skipn_plus. skip_head 2%nat. rewrite skipn_plus, (skipn_len_app (length (wire ds))) by reflexivity. skip_head 2%nat.
  apply (back_all _ _ _ nit_item_ok (item_exact niti_descs)); [lia|apply nit_entry_back|assumption|assumption].
Qed.
Lemma pmt_back t last i g : (i = 0%nat -> pmt_descs t = []) ->
  pmt_version t < 2 ^ 5 -> pmt_pnr t < 2 ^ 16 -> pmt_pcr t < 2 ^ 13 -> Forall pmt_item_ok g -> Forall (item_exact pmti_descs) g ->
  pmt_seen (pmt_section t last i g) (mkPmt (pmt_version t) (pmt_pnr t) (pmt_pcr t) [] g).
Proof.
  intros D H1 H2 H3 F E. unfold pmt_seen. cbv zeta. exists [], g. unfold pmt_section. cbv zeta.
  replace (if (i =? 0)%nat then pmt_descs t else []) with (@nil desc) by (destruct (Nat.eqb_spec i 0); [symmetry; auto|reflexivity]).
  change (wire []) with (@nil N). cbn [app]. change (wlen []) with 0.
  match goal with |- context [section ?a ?b ?c ?d ?e ?f ?r] => destruct (section_head a b c d e f r ltac:(reflexivity) H2 H1) as (E1 & E2 & E3); pose proof (section_len a b c d e f r) as SL end.
  rewrite E2, E3. rewrite (section_field _ _ _ _ _ _ _ 67 3), (section_field _ _ _ _ _ _ _ 84 20) by (try lia; rewrite app_length, layout_length by reflexivity; tw; lia).
  replace (field (layout [(3%nat, 7); (13%nat, pmt_pcr t); (4%nat, 15); (12%nat, 0)] ++ flat_map pmt_entry g) 20 12) with 0 by (symmetry; fv).
  replace (field (layout [(3%nat, 7); (13%nat, pmt_pcr t); (4%nat, 15); (12%nat, 0)] ++ flat_map pmt_entry g) 3 13) with (pmt_pcr t) by (symmetry; fv).
  rewrite !app_length, !layout_length in SL by reflexivity. tw. rewrite SL. split; [reflexivity|]. change (N.to_nat 0) with 0%nat. split; [lia|].
  split; [exists [], []; repeat split; [left; cbn; lia|constructor]|].
  rewrite (section_inner _ _ _ _ _ _ _ _ 4) by (rewrite ?app_length, ?layout_length by reflexivity; tw; lia).
  skip_head 4%nat. apply (back_all _ _ _ pmt_item_ok (item_exact pmti_descs)); [lia|apply pmt_entry_back|assumption|assumption].
Qed.
Lemma pat_back t g : pat_version t < 2 ^ 5 -> pat_tsid t < 2 ^ 16 -> Forall pat_item_ok g ->
  pat_reads (pat_section t g) (mkPat (pat_version t) (pat_tsid t) g).
Proof.
  intros H1 H2 F. unfold pat_reads, pat_section.
  match goal with |- context [section ?a ?b ?c ?d ?e ?f ?r] => destruct (section_head a b c d e f r ltac:(reflexivity) H2 H1) as (E1 & E2 & E3) end.
  rewrite E2, E3. f_equal. rewrite (section_inner _ _ _ _ _ _ _ 8 0) by lia. cbn [skipn]. clear - F.
  induction F as [|i g [I1 I2] _ IH]; [reflexivity|]. cbn [flat_map].
  assert (L : length (pat_entry i) = 4%nat) by (apply layout_length; reflexivity).
  rewrite (groups_step 4) by (try (rewrite app_length); lia). rewrite (firstn_len_app 4), (skipn_len_app 4) by assumption. cbn [map]. rewrite <- IH. f_equal.
  destruct i as [a b]. unfold pat_read, pat_entry. cbn [pati_pnr pati_pid] in *. f_equal; symmetry; (apply field_val; [reflexivity|reflexivity|assumption]).
Qed.

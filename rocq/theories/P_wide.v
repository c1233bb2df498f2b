(** Proofs: what is left of values that do not fit their place on the wire. *)
From Verif Require Import Prelude Facts S_text S_utils S_desc M_bytes M_utils M_text M_psi M_desc M_tables S_sender S_wide P_sender P_sender2.

Lemma shlw8_lt v k : shlw U8 v k < 2 ^ N.of_nat 8. Proof. apply N.mod_lt. discriminate. Qed.
Lemma shlw16_lt v k : shlw U16 v k < 2 ^ N.of_nat 16. Proof. apply N.mod_lt. discriminate. Qed.
Ltac bnd := repeat first [apply shlw8_lt | apply shlw16_lt | apply lor_lt | assumption | reflexivity | (eapply N.lt_trans; [apply N.mod_lt; discriminate|reflexivity])
  | (eapply N.lt_le_trans; [apply N.mod_lt; discriminate|discriminate])].
Ltac bits n := apply (N_ext n); [bnd|bnd|cbn [all_lt]; fold_nat_lits; unfold shlw, U8, U16; repeat (match goal with |- _ /\ _ => split end); bool_cases].

Lemma e_pid v : v < 65536 -> N.lor 0xE000 v = N.lor 0xE000 (v mod 8192).
Proof. intros H. bits 16%nat. Qed.
Lemma e_43 we pol rof s2 mo :
  N.lor (shlw U8 we 7) (N.lor (shlw U8 pol 5) (N.lor (shlw U8 rof 3) (N.lor (shlw U8 s2 2) (shlw U8 mo 0)))) =
  N.lor (shlw U8 (N.lor we (N.lor (pol / 4) (N.lor (rof / 16) (N.lor (s2 / 32) (mo / 128)))) mod 2) 7)
   (N.lor (shlw U8 (N.lor pol (N.lor (rof / 4) (N.lor (s2 / 8) (mo / 32))) mod 4) 5)
   (N.lor (shlw U8 (N.lor rof (N.lor (s2 / 2) (mo / 8)) mod 4) 3) (N.lor (shlw U8 (N.lor s2 (mo / 4) mod 2) 2) (shlw U8 (mo mod 4) 0)))).
Proof. bits 8%nat. Qed.
Lemma e_44 v : v < 256 -> N.lor 0xF0 v = N.lor 0xF0 (v mod 16).
Proof. intros H. bits 8%nat. Qed.
Lemma e_4E n l : N.lor (shlw U8 n 4) (shlw U8 l 0) = N.lor (shlw U8 (N.lor n (l / 16) mod 16) 4) (shlw U8 (l mod 16) 0).
Proof. bits 8%nat. Qed.
Lemma e_58 r p : p < 256 -> N.lor (N.lor (shlw U8 r 2) 0x02) p = N.lor (N.lor (shlw U8 (N.lor r (p / 4) mod 64) 2) 0x02) (p mod 2).
Proof. intros H. bits 8%nat. Qed.
Lemma e_5A4 bw prio ts fec :
  N.lor (shlw U8 bw 5) (N.lor (shlw U8 prio 4) (N.lor (shlw U8 ts 3) (N.lor (shlw U8 fec 2) (shlw U8 0x03 0)))) =
  N.lor (shlw U8 (N.lor bw (N.lor (prio / 2) (N.lor (ts / 4) (fec / 8))) mod 8) 5) (N.lor (shlw U8 (N.lor prio (N.lor (ts / 2) (fec / 4)) mod 2) 4)
   (N.lor (shlw U8 (N.lor ts (fec / 2) mod 2) 3) (N.lor (shlw U8 (fec mod 2) 2) (shlw U8 0x03 0)))).
Proof. bits 8%nat. Qed.
Lemma e_5A5 mo hi hp :
  N.lor (shlw U8 mo 6) (N.lor (shlw U8 hi 3) (shlw U8 hp 0)) =
  N.lor (shlw U8 (N.lor mo (N.lor (hi / 8) (hp / 64)) mod 4) 6) (N.lor (shlw U8 (N.lor hi (hp / 8) mod 8) 3) (shlw U8 (hp mod 8) 0)).
Proof. bits 8%nat. Qed.
Lemma e_5A6 lp gu tr ot :
  N.lor (shlw U8 lp 5) (N.lor (shlw U8 gu 3) (N.lor (shlw U8 tr 1) (shlw U8 ot 0))) =
  N.lor (shlw U8 (N.lor lp (N.lor (gu / 4) (N.lor (tr / 16) (ot / 32))) mod 8) 5) (N.lor (shlw U8 (N.lor gu (N.lor (tr / 4) (ot / 8)) mod 4) 3)
   (N.lor (shlw U8 (N.lor tr (ot / 2) mod 4) 1) (shlw U8 (ot mod 2) 0))).
Proof. bits 8%nat. Qed.
Lemma e_83 v l : N.lor (shlw U16 v 15) (N.lor (shlw U16 0x1F 10) (shlw U16 l 0)) =
  N.lor (shlw U16 (N.lor v (l / 32768) mod 2) 15) (N.lor (shlw U16 0x1F 10) (shlw U16 (l mod 1024) 0)).
Proof. bits 16%nat. Qed.
Lemma e_sched s p : p < 256 -> N.lor (N.lor 0xFC (shlw U8 s 1)) p = N.lor (N.lor 0xFC (shlw U8 (N.lor s (p / 2) mod 2) 1)) (p mod 2).
Proof. intros H. bits 8%nat. Qed.
Lemma e_status s c : N.lor (shlw U8 s 5) (shlw U8 c 4) = N.lor (shlw U8 (N.lor s (c / 2) mod 8) 5) (shlw U8 (c mod 2) 4).
Proof. bits 8%nat. Qed.
Lemma e_version v : N.lor (N.lor 0xC0 (N.land (shlw U8 v 1) 0x3E)) 0x01 = N.lor (N.lor 0xC0 (N.land (shlw U8 (v mod 32) 1) 0x3E)) 0x01.
Proof. f_equal. f_equal. apply (N_ext 8); [eapply N.le_lt_trans; [apply land_le_r|reflexivity]|eapply N.le_lt_trans; [apply land_le_r|reflexivity]|]. cbn [all_lt]; fold_nat_lits; unfold shlw, U8; repeat (match goal with |- _ /\ _ => split end); bool_cases. Qed.
Lemma e_24 l k v : set_u24_at l k (N.lor 0x00C00000 v) = set_u24_at l k (N.lor 0x00C00000 (v mod 4194304)).
Proof.
  unfold set_u24_at, on_from. destruct (slice_from l k); cbn [bind]; [|reflexivity|reflexivity]. unfold set_u24, cast.
  assert (E2 : N.shiftr (N.lor 0x00C00000 v) 16 mod U8 = N.shiftr (N.lor 0x00C00000 (v mod 4194304)) 16 mod U8) by (bits 8%nat).
  assert (E1 : N.shiftr (N.lor 0x00C00000 v) 8 mod U8 = N.shiftr (N.lor 0x00C00000 (v mod 4194304)) 8 mod U8) by (bits 8%nat).
  assert (E0 : N.lor 0x00C00000 v mod U8 = N.lor 0x00C00000 (v mod 4194304) mod U8) by (bits 8%nat).
  rewrite E2, E1, E0. reflexivity.
Qed.
Lemma t16 m v : u16_to_bcd_time m v = u16_to_bcd_time m (v mod 1440).
Proof. unfold u16_to_bcd_time. assert (E1 : v / 60 mod 24 = v mod 1440 / 60 mod 24) by dlia. assert (E2 : v mod 60 = v mod 1440 mod 60) by dlia. rewrite <- E1, <- E2. reflexivity. Qed.
Lemma t32 m v : u32_to_bcd_time m v = u32_to_bcd_time m (v mod 86400).
Proof.
  unfold u32_to_bcd_time. assert (E1 : v / 3600 mod 24 = v mod 86400 / 3600 mod 24) by dlia. assert (E2 : v / 60 mod 60 = v mod 86400 / 60 mod 60) by dlia.
  assert (E3 : v mod 60 = v mod 86400 mod 60) by dlia. rewrite <- E1, <- E2, <- E3. reflexivity.
Qed.

(** ** descriptors *)
Lemma fit_size d : desc_size (fit_desc d) = desc_size d.
Proof. destruct d; try reflexivity; cbn [fit_desc desc_size]; rewrite ?map_length; reflexivity. Qed.
Lemma fit_58_items m items : forall b, Forall (fun i => d58_pol i < 2 ^ 8) items -> x58_items m (map fit_58 items) b = x58_items m items b.
Proof.
  induction items as [|i r IH]; intros b H; cbn [map x58_items]; [reflexivity|]. inversion H as [|? ? H1 H2]; subst. unfold fit_58 at 1 2 3 4 5 6 7.
  cbn [d58_code d58_region d58_pol d58_offset d58_time d58_next]. rewrite <- e_58 by exact H1. rewrite <- !t16.
  destruct (dvb_assemble m (d58_code i) b); cbn [bind]; [|reflexivity|reflexivity].
  repeat match goal with |- bind ?e _ = bind ?e _ => destruct e; cbn [bind]; [|reflexivity|reflexivity] end. apply IH. exact H2.
Qed.
Lemma fit_83_items items : forall b k, x83_items (map fit_83 items) b k = x83_items items b k.
Proof.
  induction items as [|i r IH]; intros b k; cbn [map x83_items]; [reflexivity|]. unfold fit_83 at 1 2 3. cbn [d83_sid d83_visible d83_lcn]. rewrite <- e_83.
  repeat match goal with |- bind ?e _ = bind ?e _ => destruct e; cbn [bind]; [|reflexivity|reflexivity] end. apply IH.
Qed.
Lemma fit_assemble m d b : desc_typed d -> desc_assemble m (fit_desc d) b = desc_assemble m d b.
Proof.
  intros T. pose proof (fit_size d) as S. destruct d; try reflexivity; cbn [fit_desc] in *; cbn [desc_assemble desc_typed] in *.
  - unfold x09_assemble. rewrite S. cbn [d09_caid d09_pid d09_data]. rewrite <- e_pid by apply T. reflexivity.
  - unfold x0E_assemble. rewrite S. cbn [d0E_bitrate]. cbv zeta. repeat match goal with |- bind ?e _ = bind ?e _ => destruct e; cbn [bind]; [|reflexivity|reflexivity] end. symmetry. apply e_24.
  - unfold x43_assemble. rewrite S. cbn [d43_freq d43_orbital d43_we d43_pol d43_rof d43_s2 d43_mod d43_rate d43_fec]. rewrite <- e_43, !N.div_mul by discriminate. reflexivity.
  - unfold x44_assemble. rewrite S. cbn [d44_freq d44_outer d44_mod d44_rate d44_fec]. rewrite <- e_44, !N.div_mul by (discriminate || apply T). reflexivity.
  - unfold x4E_assemble. rewrite S. cbn [d4E_num d4E_last d4E_lang d4E_items d4E_text]. rewrite <- e_4E. reflexivity.
  - unfold x58_assemble. rewrite S. apply fit_58_items. eapply Forall_impl; [|exact T]. intros i (_ & _ & X & _). exact X.
  - unfold x5A_assemble. cbn [d5A_freq d5A_bw d5A_prio d5A_ts d5A_fec d5A_mod d5A_hier d5A_hp d5A_lp d5A_guard d5A_trans d5A_other]. rewrite <- e_5A4, <- e_5A5, <- e_5A6, N.div_mul by discriminate. reflexivity.
  - unfold x83_assemble. rewrite S. cbv zeta. repeat match goal with |- bind ?e _ = bind ?e _ => destruct e; cbn [bind]; [|reflexivity|reflexivity] end. apply fit_83_items.
Qed.
Lemma fit_bytes m ds : forall b, descs_typed ds -> descs_bytes m (fit_loop ds) b = descs_bytes m ds b.
Proof.
  induction ds as [|d r IH]; intros b T; [reflexivity|]. inversion T; subst. unfold fit_loop in *. cbn [map descs_bytes]. rewrite fit_assemble by assumption.
  destruct (desc_assemble m d b); cbn [bind]; [apply IH; assumption|reflexivity|reflexivity].
Qed.
Lemma fit_descs m ds b : descs_typed ds -> descs_assemble m (fit_loop ds) b = descs_assemble m ds b.
Proof. intros T. unfold descs_assemble. rewrite fit_bytes by exact T. reflexivity. Qed.
Lemma fit_descs_size ds : descs_size (fit_loop ds) = descs_size ds.
Proof. rewrite !descs_said. induction ds as [|d r IH]; [reflexivity|]. unfold fit_loop, sum in *. cbn [map fold_right]. rewrite IH, <- !size_said, fit_size. reflexivity. Qed.

(** ** tables *)
Lemma new_version m a n v : psi_new m a n v = psi_new m a n (v mod 32).
Proof. unfold psi_new. rewrite e_version. reflexivity. Qed.
Ltac same := repeat match goal with |- bind ?e _ = bind ?e _ => destruct e as [?| |]; cbn [bind]; [|reflexivity|reflexivity] end.
Section PackMap.
Context {A : Type} (limit : nat) (size : A -> nat) (asm : A -> list N -> res (list N)) (init init' : res psi) (f : A -> A) (ok : A -> Prop)
  (Hs : forall i, ok i -> size (f i) = size i) (Ha : forall i b, ok i -> asm (f i) b = asm i b) (Hi : init' = init).
Lemma pack_map : forall items done cur, Forall ok items -> pack limit size asm init' (map f items) done cur = pack limit size asm init items done cur.
Proof.
  subst init'. induction items as [|i r IH]; intros done cur H; cbn [map pack]; [reflexivity|]. inversion H; subst. rewrite Hs, !Ha by assumption.
  destruct (length (p_buffer cur) + size i <=? limit)%nat.
  - destruct (asm i (p_buffer cur)); cbn [bind]; [apply IH; assumption|reflexivity|reflexivity].
  - destruct init as [p| |]; cbn [bind]; [|reflexivity|reflexivity]. rewrite Ha by assumption. destruct (asm i (p_buffer p)); cbn [bind]; [apply IH; assumption|reflexivity|reflexivity].
Qed.
End PackMap.

Lemma wide_pat m t pid cc dst : pat_typed t -> pat_demux m (fit_pat t) pid cc dst = pat_demux m t pid cc dst.
Proof.
  intros (_ & _ & T). unfold pat_demux. f_equal. unfold pat_sections, fit_pat. cbn [pat_version pat_tsid pat_items]. rewrite <- new_version. same.
  match goal with |- bind (pat_fill _ ?b) _ = _ => generalize b as b0 end.
  assert (E : forall b, pat_fill (map (fun i => mkPatI (pati_pnr i) (pati_pid i mod 8192)) (pat_items t)) b = pat_fill (pat_items t) b).
  { induction (pat_items t) as [|i r IH]; intros b; cbn [map pat_fill]; [reflexivity|]. inversion T as [|? ? (T1 & T2) T3]; subst.
    change (pat_item_size (mkPatI (pati_pnr i) (pati_pid i mod 8192))) with (pat_item_size i). destruct (SECTION_SIZE <? length b + pat_item_size i)%nat; [reflexivity|].
    assert (E : pat_item_assemble (mkPatI (pati_pnr i) (pati_pid i mod 8192)) b = pat_item_assemble i b) by (unfold pat_item_assemble; cbn [pati_pnr pati_pid]; rewrite <- e_pid by exact T2; reflexivity).
    rewrite E. destruct (pat_item_assemble i b); cbn [bind]; [apply IH; exact T3|reflexivity|reflexivity]. }
  intros b0. rewrite E. reflexivity.
Qed.
Lemma wide_pmt m t pid cc dst : pmt_typed t -> pmt_demux m (fit_pmt t) pid cc dst = pmt_demux m t pid cc dst.
Proof.
  intros (_ & _ & T1 & T2 & T3). unfold pmt_demux. f_equal. unfold pmt_sections.
  assert (I : forall first, pmt_init m (fit_pmt t) first = pmt_init m t first).
  { intros first. unfold pmt_init, fit_pmt. cbn [pmt_version pmt_pnr pmt_pcr pmt_descs]. rewrite <- new_version, <- e_pid by exact T1. same. destruct first; [|reflexivity]. rewrite fit_descs by exact T2. reflexivity. }
  rewrite !I. same. unfold fit_pmt. cbn [pmt_items].
  apply pack_map with (ok := fun i => pmti_pid i < 2 ^ 16 /\ descs_typed (pmti_descs i)); [| |reflexivity|].
  - intros i _. unfold pmt_item_size. cbn [pmti_descs]. rewrite fit_descs_size. reflexivity.
  - intros i b (X1 & X2). unfold pmt_item_assemble. cbn [pmti_type pmti_pid pmti_descs]. cbv zeta. rewrite <- e_pid by exact X1. same. rewrite fit_descs by exact X2. reflexivity.
  - eapply Forall_impl; [|exact T3]. intros i (_ & X1 & X2). auto.
Qed.
Lemma wide_nit m t pid cc dst : nit_typed t -> nit_demux m (fit_nit t) pid cc dst = nit_demux m t pid cc dst.
Proof.
  intros (_ & _ & _ & T2 & T3). unfold nit_demux. f_equal. unfold nit_sections.
  assert (I : forall first, nit_init m (fit_nit t) first = nit_init m t first).
  { intros first. unfold nit_init, fit_nit. cbn [nit_table nit_version nit_network nit_descs]. rewrite <- new_version. same. destruct first; [|reflexivity]. rewrite fit_descs by exact T2. reflexivity. }
  rewrite !I. same. f_equal. unfold fit_nit. cbn [nit_items].
  apply pack_map with (ok := fun i => descs_typed (niti_descs i)); [| |reflexivity|].
  - intros i _. unfold nit_item_size. cbn [niti_descs]. rewrite fit_descs_size. reflexivity.
  - intros i b X2. unfold nit_item_assemble. cbn [niti_tsid niti_onid niti_descs]. cbv zeta. same. rewrite fit_descs by exact X2. reflexivity.
  - eapply Forall_impl; [|exact T3]. intros i (_ & X1 & X2). auto.
Qed.
Lemma wide_sdt m t pid cc dst : sdt_typed t -> sdt_demux m (fit_sdt t) pid cc dst = sdt_demux m t pid cc dst.
Proof.
  intros (_ & _ & _ & _ & T3). unfold sdt_demux. f_equal. unfold sdt_sections.
  assert (I : sdt_init m (fit_sdt t) = sdt_init m t).
  { unfold sdt_init, fit_sdt. cbn [sdt_table sdt_version sdt_tsid sdt_onid]. rewrite <- new_version. reflexivity. }
  rewrite I. same. unfold fit_sdt. cbn [sdt_items].
  apply pack_map with (ok := fun i => sdti_pf i < 2 ^ 8 /\ descs_typed (sdti_descs i)); [| |reflexivity|].
  - intros i _. unfold sdt_item_size. cbn [sdti_descs]. rewrite fit_descs_size. reflexivity.
  - intros i b (X1 & X2). unfold sdt_item_assemble. cbn [sdti_pnr sdti_sched sdti_pf sdti_status sdti_ca sdti_descs]. cbv zeta. rewrite <- e_sched, <- e_status by exact X1. same. rewrite fit_descs by exact X2. reflexivity.
  - eapply Forall_impl; [|exact T3]. intros i (_ & _ & X1 & _ & _ & X2). auto.
Qed.
Lemma wide_tot m t pid cc dst : tot_typed t -> tot_demux m (fit_tot t) pid cc dst = tot_demux m t pid cc dst.
Proof.
  intros (_ & T). unfold tot_demux. f_equal. unfold tot_section, fit_tot. cbn [tot_time tot_descs]. cbv zeta. same. rewrite fit_descs by exact T. reflexivity.
Qed.
(** events *)
Definition ev_typed (i : eit_item) : Prop := descs_typed (eiti_descs i).
Lemma wide_event m i b : ev_typed i -> eit_item_assemble m (fit_event i) b = eit_item_assemble m i b.
Proof.
  intros T. unfold eit_item_assemble, fit_event. cbn [eiti_id eiti_start eiti_duration eiti_status eiti_ca eiti_descs]. cbv zeta. rewrite <- e_status, <- t32. same. rewrite fit_descs by exact T. reflexivity.
Qed.
Lemma wide_event_size i : eit_item_size (fit_event i) = eit_item_size i.
Proof. unfold eit_item_size, fit_event. cbn [eiti_descs]. rewrite fit_descs_size. reflexivity. Qed.
Lemma wide_init m t : eit_init m (fit_eit t) = eit_init m t.
Proof. unfold eit_init, fit_eit. cbn [eit_table eit_version eit_pnr eit_tsid eit_onid]. rewrite <- new_version. reflexivity. Qed.
Lemma wide_pf m t last : forall items n, Forall ev_typed items -> eit_pf m (fit_eit t) last n (map fit_event items) = eit_pf m t last n items.
Proof.
  induction items as [|i r IH]; intros n H; cbn [map eit_pf]; [reflexivity|]. inversion H; subst. rewrite wide_init. change (eit_table (fit_eit t)) with (eit_table t). same. rewrite wide_event by assumption. same.
  rewrite IH by assumption. reflexivity.
Qed.
Lemma wide_open m t table section i : ev_typed i -> eit_open m (fit_eit t) table section (fit_event i) = eit_open m t table section i.
Proof. intros H. unfold eit_open. rewrite wide_init. same. rewrite wide_event by exact H. reflexivity. Qed.
Lemma wide_fill m t : forall items next table section done cur, Forall ev_typed items ->
  eit_fill m (fit_eit t) (map fit_event items) next table section done cur = eit_fill m t items next table section done cur.
Proof.
  induction items as [|i r IH]; intros next table section done cur H; cbn [map eit_fill]; [reflexivity|]. inversion H; subst. rewrite wide_event_size. change (eiti_start (fit_event i)) with (eiti_start i).
  destruct (next <=? eiti_start i).
  - same. cbv zeta. same. destruct a0 as [s' t']. rewrite wide_open by assumption. same. apply IH. assumption.
  - destruct (EIT_SECTION_SIZE <=? eit_item_size i + length (p_buffer cur))%nat.
    + same. rewrite wide_open by assumption. same. apply IH. assumption.
    + rewrite wide_event by assumption. same. apply IH. assumption.
Qed.
Lemma last_fit items : forall first, eiti_start (last (map fit_event items) (fit_event first)) = eiti_start (last items first).
Proof. induction items as [|i r IH]; intros first; [reflexivity|]. destruct r as [|j r]; [reflexivity|]. exact (IH first). Qed.
Lemma wide_eit m t pid cc dst : eit_typed t -> eit_demux m (fit_eit t) pid cc dst = eit_demux m t pid cc dst.
Proof.
  intros (_ & _ & _ & _ & _ & T). unfold eit_demux. f_equal. unfold eit_sections. change (eit_items (fit_eit t)) with (map fit_event (eit_items t)). change (eit_table (fit_eit t)) with (eit_table t).
  assert (H : Forall ev_typed (eit_items t)) by (eapply Forall_impl; [|exact T]; intros i (_ & _ & _ & _ & _ & X); exact X). clear T.
  destruct (eit_items t) as [|first items]; [reflexivity|]. cbn [map]. destruct ((eit_table t =? 78) || (eit_table t =? 79)).
  - cbn [length]. rewrite map_length. exact (wide_pf m t _ (first :: items) 0 H).
  - unfold eit_schedule. cbv zeta. change (eit_table (fit_eit t)) with (eit_table t). change (eiti_start (fit_event first)) with (eiti_start first). rewrite last_fit.
    change (eit_version (fit_eit t)) with (eit_version t mod 32). change (eit_pnr (fit_eit t)) with (eit_pnr t). change (eit_tsid (fit_eit t)) with (eit_tsid t). change (eit_onid (fit_eit t)) with (eit_onid t). rewrite wide_init.
    same. assert (E : eit_init m (mkEit (N.land (eit_table t) 240) (eit_version t mod 32) (eit_pnr t) (eit_tsid t) (eit_onid t) []) = eit_init m (mkEit (N.land (eit_table t) 240) (eit_version t) (eit_pnr t) (eit_tsid t) (eit_onid t) [])).
    { unfold eit_init. cbn [eit_table eit_version eit_pnr eit_tsid eit_onid]. rewrite <- new_version. reflexivity. }
    rewrite E. same. match goal with x : list psi * N * N |- _ => destruct x as [[bl mid] sc] end. same.
    change (fit_event first :: map fit_event items) with (map fit_event (first :: items)). rewrite wide_fill by exact H. reflexivity.
Qed.

(** Texts of a user in tables. *)
From Verif Require Import Prelude Layout M_text S_text M_desc S_desc M_tables S_tables S_utils M_psi M_words S_words P_text P_text2 P_text3 P_wide.
From Verif Require Props_text.

(** ** an empty text has no code page on the wire *)
Definition bare (t : dvb) : dvb := match t_data t with [] => mkDvb 0 [] | _ => t end.
Definition bare_desc (d : desc) : desc :=
  match d with
  | D40 t => D40 (bare t)
  | D48 d => D48 (mk48 (d48_type d) (bare (d48_provider d)) (bare (d48_name d)))
  | D4D d => D4D (mk4D (bare (d4D_lang d)) (bare (d4D_name d)) (bare (d4D_text d)))
  | D4E d => D4E (mk4E (d4E_num d) (d4E_last d) (bare (d4E_lang d)) (d4E_items d) (bare (d4E_text d)))
  | d => d
  end.
Definition bares (ds : list desc) : list desc := map bare_desc ds.
Lemma bare_bytes m t : dvb_bytes m (bare t) = dvb_bytes m t.
Proof. destruct t as [cp [|b d]]; reflexivity. Qed.
Lemma bare_assemble m t b : dvb_assemble m (bare t) b = dvb_assemble m t b.
Proof. unfold dvb_assemble. rewrite bare_bytes. reflexivity. Qed.
Lemma bare_sized m t b : dvb_assemble_sized m (bare t) b = dvb_assemble_sized m t b.
Proof. unfold dvb_assemble_sized. rewrite bare_assemble. reflexivity. Qed.
Lemma bare_size t : dvb_size (bare t) = dvb_size t. Proof. destruct t as [cp [|b d]]; reflexivity. Qed.
Lemma bare_display t : dvb_display (bare t) = dvb_display t. Proof. destruct t as [cp [|b d]]; reflexivity. Qed.
Lemma bare_string t : dvb_to_string (bare t) = dvb_to_string t. Proof. unfold dvb_to_string. rewrite bare_display. reflexivity. Qed.
Lemma bare_text t : text (bare t) = text t. Proof. destruct t as [cp [|b d]]; reflexivity. Qed.
Lemma bare_wide d : desc_size (bare_desc d) = desc_size d.
Proof. destruct d as [| | | | | | |[? ? ?]|[? ? ?]|[? ? ? ? ?]| | | | |]; try reflexivity; cbn; rewrite ?bare_size; reflexivity. Qed.
Lemma bare_written m d b : desc_assemble m (bare_desc d) b = desc_assemble m d b.
Proof.
  pose proof (bare_wide d) as W. destruct d; try reflexivity; cbn [bare_desc] in *; cbn [desc_assemble].
  - unfold x40_assemble. apply bare_sized.
  - unfold x48_assemble. rewrite W. cbn [d48_type d48_provider d48_name]. cbv zeta. rewrite !bare_sized. same. apply bare_sized.
  - unfold x4D_assemble. rewrite W. cbn [d4D_lang d4D_name d4D_text]. cbv zeta. rewrite !bare_assemble. same. rewrite bare_sized. same. apply bare_sized.
  - unfold x4E_assemble. rewrite W. cbn [d4E_num d4E_last d4E_lang d4E_items d4E_text]. cbv zeta.
    destruct (255 <? _)%nat; [reflexivity|]. rewrite bare_assemble. same. apply bare_sized.
Qed.
Lemma bare_body d : body (bare_desc d) = body d.
Proof. destruct d; try reflexivity; cbn [bare_desc body]; unfold sized; cbn [d48_type d48_provider d48_name d4D_lang d4D_name d4D_text d4E_num d4E_last d4E_lang d4E_items d4E_text]; rewrite ?bare_text; reflexivity. Qed.
Lemma bare_tag d : desc_tag (bare_desc d) = desc_tag d. Proof. destruct d; reflexivity. Qed.
Lemma bare_wire ds : S_tables.wire (bares ds) = S_tables.wire ds.
Proof. unfold S_tables.wire, bares. rewrite map_map. f_equal. apply map_ext. intros d. rewrite bare_tag, bare_body. reflexivity. Qed.

Lemma bares_bytes m ds : forall b, descs_bytes m (bares ds) b = descs_bytes m ds b.
Proof.
  induction ds as [|d r IH]; intros b; [reflexivity|]. unfold bares in *. cbn [map descs_bytes]. rewrite bare_written.
  destruct (desc_assemble m d b); cbn [bind]; [apply IH|reflexivity|reflexivity].
Qed.
Lemma bares_written m ds b : descs_assemble m (bares ds) b = descs_assemble m ds b.
Proof. unfold descs_assemble. rewrite bares_bytes. reflexivity. Qed.
Lemma bares_size ds : descs_size (bares ds) = descs_size ds.
Proof.
  unfold bares, descs_size. generalize 0%nat. induction ds as [|d r IH]; intros n; [reflexivity|]. cbn [map fold_left]. rewrite bare_wide. apply IH.
Qed.

(** ** so a table goes out as the same table with bare texts *)
Definition bare_service (i : sdt_item) : sdt_item := mkSdtI (sdti_pnr i) (sdti_sched i) (sdti_pf i) (sdti_status i) (sdti_ca i) (bares (sdti_descs i)).
Definition bare_sdt (t : sdt) : sdt := mkSdt (sdt_table t) (sdt_version t) (sdt_tsid t) (sdt_onid t) (map bare_service (sdt_items t)).
Definition bare_event (i : eit_item) : eit_item := mkEitI (eiti_id i) (eiti_start i) (eiti_duration i) (eiti_status i) (eiti_ca i) (bares (eiti_descs i)).
Definition bare_eit (t : eit) : eit := mkEit (eit_table t) (eit_version t) (eit_pnr t) (eit_tsid t) (eit_onid t) (map bare_event (eit_items t)).
Definition bare_nit (t : nit) : nit := mkNit (nit_table t) (nit_version t) (nit_network t) (bares (nit_descs t)) (nit_items t).
Lemma Forall_true {A} (l : list A) : Forall (fun _ => True) l. Proof. induction l; constructor; auto. Qed.
Lemma bare_sdt_out m t pid cc dst : sdt_demux m (bare_sdt t) pid cc dst = sdt_demux m t pid cc dst.
Proof.
  unfold sdt_demux. f_equal. unfold sdt_sections. change (sdt_init m (bare_sdt t)) with (sdt_init m t). same. unfold bare_sdt. cbn [sdt_items].
  apply pack_map with (ok := fun _ => True); [| |reflexivity|apply Forall_true].
  - intros i _. unfold sdt_item_size, bare_service. cbn [sdti_descs]. rewrite bares_size. reflexivity.
  - intros i b _. unfold sdt_item_assemble, bare_service. cbn [sdti_pnr sdti_sched sdti_pf sdti_status sdti_ca sdti_descs]. cbv zeta. same. rewrite bares_written. reflexivity.
Qed.
Lemma bare_nit_out m t pid cc dst : nit_demux m (bare_nit t) pid cc dst = nit_demux m t pid cc dst.
Proof.
  unfold nit_demux. f_equal. unfold nit_sections.
  assert (I : forall first, nit_init m (bare_nit t) first = nit_init m t first).
  { intros first. unfold nit_init, bare_nit. cbn [nit_table nit_version nit_network nit_descs]. same. destruct first; [|reflexivity]. rewrite bares_written. reflexivity. }
  rewrite !I. reflexivity.
Qed.
Lemma bare_ev_out m i b : eit_item_assemble m (bare_event i) b = eit_item_assemble m i b.
Proof. unfold eit_item_assemble, bare_event. cbn [eiti_id eiti_start eiti_duration eiti_status eiti_ca eiti_descs]. cbv zeta. same. rewrite bares_written. reflexivity. Qed.
Lemma bare_ev_size i : eit_item_size (bare_event i) = eit_item_size i.
Proof. unfold eit_item_size, bare_event. cbn [eiti_descs]. rewrite bares_size. reflexivity. Qed.
Lemma bare_pf m t last : forall items n, eit_pf m (bare_eit t) last n (map bare_event items) = eit_pf m t last n items.
Proof.
  induction items as [|i r IH]; intros n; cbn [map eit_pf]; [reflexivity|]. change (eit_init m (bare_eit t)) with (eit_init m t). change (eit_table (bare_eit t)) with (eit_table t).
  same. rewrite bare_ev_out. same. rewrite IH. reflexivity.
Qed.
Lemma bare_open m t table section i : eit_open m (bare_eit t) table section (bare_event i) = eit_open m t table section i.
Proof. unfold eit_open. change (eit_init m (bare_eit t)) with (eit_init m t). same. rewrite bare_ev_out. reflexivity. Qed.
Lemma bare_fill m t : forall items next table section done cur,
  eit_fill m (bare_eit t) (map bare_event items) next table section done cur = eit_fill m t items next table section done cur.
Proof.
  induction items as [|i r IH]; intros next table section done cur; cbn [map eit_fill]; [reflexivity|]. rewrite bare_ev_size. change (eiti_start (bare_event i)) with (eiti_start i).
  destruct (next <=? eiti_start i).
  - same. cbv zeta. same. destruct a0 as [s' t']. rewrite bare_open. same. apply IH.
  - destruct (EIT_SECTION_SIZE <=? eit_item_size i + length (p_buffer cur))%nat.
    + same. rewrite bare_open. same. apply IH.
    + rewrite bare_ev_out. same. apply IH.
Qed.
Lemma last_bare items : forall first, eiti_start (last (map bare_event items) (bare_event first)) = eiti_start (last items first).
Proof. induction items as [|i r IH]; intros first; [reflexivity|]. destruct r as [|j r]; [reflexivity|]. exact (IH first). Qed.
Lemma bare_eit_out m t pid cc dst : eit_demux m (bare_eit t) pid cc dst = eit_demux m t pid cc dst.
Proof.
  unfold eit_demux. f_equal. unfold eit_sections. change (eit_items (bare_eit t)) with (map bare_event (eit_items t)). change (eit_table (bare_eit t)) with (eit_table t).
  destruct (eit_items t) as [|first items]; [reflexivity|]. cbn [map]. destruct ((eit_table t =? 78) || (eit_table t =? 79)).
  - cbn [length]. rewrite map_length. exact (bare_pf m t _ (first :: items) 0).
  - unfold eit_schedule. cbv zeta. change (eit_table (bare_eit t)) with (eit_table t). change (eiti_start (bare_event first)) with (eiti_start first). rewrite last_bare.
    change (eit_version (bare_eit t)) with (eit_version t). change (eit_pnr (bare_eit t)) with (eit_pnr t). change (eit_tsid (bare_eit t)) with (eit_tsid t). change (eit_onid (bare_eit t)) with (eit_onid t).
    change (eit_init m (bare_eit t)) with (eit_init m t). same. match goal with x : list psi * N * N |- _ => destruct x as [[bl mid] sc] end. same.
    change (bare_event first :: map bare_event items) with (map bare_event (first :: items)). rewrite bare_fill. reflexivity.
Qed.

(** Proofs: what a receiver sees of an EIT schedule of any length. *)
From Verif Require Import Prelude Layout Facts Facts2 S_ts S_crc S_utils S_psi M_bytes M_ts M_crc M_utils M_psi M_drive M_recv M_desc S_desc
  M_tables S_tables P_bytes P_crc P_utils P_psi P_mux P_mux2 P_sect P_mux3 P_desc P_desc2 P_desc3 W_psi W_desc P_tab P_tab2 P_tab3 P_tab4 P_tab5 P_tab6
  P_eit P_eit2 P_eit3 W_tables.

(** the sections with a table_id of an EIT *)
Definition visible (s : slot) : bool := (0x4E <=? slot_table s) && (slot_table s <=? 0x6F).

Lemma eit_recover_any m t : eit_ok t -> forall ss old, Forall section_ok (map (slot_section t) ss) ->
  Forall (fun s => slot_table s < 256) ss -> Forall (fun s => Forall eit_item_ok (slot_items s)) ss ->
  Forall (fun s => Forall (item_exact eiti_descs) (slot_items s)) ss ->
  parse_sections (eit_parse m) old (map (slot_section t) ss) =
  Ok (match filter visible ss with
      | [] => old
      | seen => eit_add old (mkEit (slot_table (last seen no_slot)) (eit_version t) (eit_pnr t) (eit_tsid t) (eit_onid t) (concat (map slot_items seen)))
      end).
Proof.
  intros H. pose proof H as (H1 & H2 & H3 & H4 & H5 & H6).
  induction ss as [|s ss IH]; intros old K T F X; [reflexivity|]. inversion K; inversion T; inversion F; inversion X; subst.
  cbn [map parse_sections filter].
  assert (V : visible s = true <-> 0x4E <= slot_table s <= 0x6F) by (unfold visible; rewrite andb_true_iff, !N.leb_le; reflexivity).
  destruct s as [[[[[tb n] a] b] c] g]. cbn [slot_section slot_table slot_items] in *.
  destruct (visible (tb, n, a, b, c, g)).
  - rewrite (eit_parse_section m old _ (eit_section t tb n a b c g) (mkEit tb (eit_version t) (eit_pnr t) (eit_tsid t) (eit_onid t) g)).
    2: { apply has_alone; assumption. } 2: { rewrite eit_tables by (try assumption; lia). apply V. reflexivity. } 2: { apply eit_len. }
    2: { apply eit_back; try assumption. }
    cbn [bind]. rewrite IH by assumption. destruct (filter visible ss) as [|s' seen].
    + cbn [map concat last slot_table slot_items]. rewrite app_nil_r. reflexivity.
    + unfold eit_add. cbn [eit_items eit_table eit_version eit_pnr eit_tsid eit_onid].
      replace (last ((tb, n, a, b, c, g) :: s' :: seen) no_slot) with (last (s' :: seen) no_slot) by reflexivity.
      cbn [map concat slot_items]. rewrite <- app_assoc. reflexivity.
  - rewrite eit_pass.
    + cbn [bind]. apply IH; assumption.
    + match goal with S : section_ok _ |- _ => destruct S as (S1 & S2 & S3 & S4) end. split; [exact S1|]. right. cbn [p_buffer p_size]. split; [lia|exact S2].
    + intros (_ & A & _). cbn [p_buffer] in A. rewrite eit_tables in A by assumption. unfold eit_ids in A. apply V in A. discriminate.
Qed.

Definition seen (slots : list slot) : list slot := filter visible slots.
Lemma eit_schedule_seen m t first items lt l pid cc : eit_ok t -> eit_items t = first :: items -> eit_fits (N.to_nat 4098) t ->
  0x50 <= eit_table t <= 0x6F -> pid < 8192 -> cc < 16 ->
  Forall (item_exact eiti_descs) (eit_items t) -> forall m', eit_plan m' t first items = Ok (lt, l) ->
  let slots := sealing lt l in
  forall p old, exists q, receive m (eit_parse m) p old (stream pid cc (map (slot_section t) slots)) =
    Ok (q, eit_add old (mkEit (slot_table (last (seen slots) no_slot)) (eit_version t) (eit_pnr t) (eit_tsid t) (eit_onid t) (concat (map slot_items (seen slots))))).
Proof.
  intros H E F R Hp Hc X m' P slots p old. destruct (eit_schedule_spec m' t first items H E F) as [_ K]. specialize (K _ _ P).
  pose proof (plan_parts m' t first items H E F lt l P) as PP. pose proof (eit_plan_items _ _ _ _ _ _ P) as PI.
  assert (V0 : exists s r, seen slots = s :: r).
  { unfold eit_plan in P. apply bind_inv in P as (sv & _ & P). apply bind_inv in P as (lt' & _ & P). apply bind_inv in P as (l' & _ & Q). injection Q as <- <-. subst slots.
    replace (N.to_nat (segment first + 1)) with (S (N.to_nat (segment first))) in * by lia. cbn [blanks app] in *.
    pose proof (sealing_parts lt' ((N.land (eit_table t) 240, 0, []) :: blanks (N.to_nat (segment first)) (N.land (eit_table t) 240) (0 + 8) ++ l')) as SP.
    destruct (sealing lt' _) as [|s ss]; [discriminate|]. cbn [map] in SP. injection SP as SP _.
    assert (VS : visible s = true).
    { unfold visible. rewrite slot_part_table, SP. cbn [part_table]. rewrite land_F0 by lia. rewrite andb_true_iff, !N.leb_le. clear - R. dlia. }
    exists s, (seen ss). unfold seen. cbn [filter]. rewrite VS. reflexivity. }
  assert (A : parse_sections (eit_parse m) old (map (slot_section t) slots) =
    Ok (eit_add old (mkEit (slot_table (last (seen slots) no_slot)) (eit_version t) (eit_pnr t) (eit_tsid t) (eit_onid t) (concat (map slot_items (seen slots)))))).
  { subst slots. rewrite eit_recover_any; try assumption.
    - fold (seen (sealing lt l)). destruct V0 as (s & r & ->). reflexivity.
    - eapply Forall_impl; [|apply (forall_map_parts _ lt l PP)]. intros s Q. rewrite slot_part_table. apply Q.
    - eapply Forall_impl; [|apply (forall_map_parts _ lt l PP)]. intros s (_ & _ & Q & _). rewrite slot_part_item. exact Q.
    - assert (XX : Forall (fun x => Forall (item_exact eiti_descs) (part_items x)) l).
      { rewrite E, <- PI in X. clear - X. induction l as [|x l IH]; [constructor|]. cbn [map concat] in X. apply Forall_app in X as [A B]. constructor; auto. }
      eapply Forall_impl; [|apply (forall_map_parts _ lt l XX)]. intros s Q. rewrite slot_part_item. exact Q. }
  exact (receive_stream m _ pid (eit_quiet m) (eit_blind m) _ p old cc K Hc _ A).
Qed.

Lemma seen_all lo slots : 0x50 <= lo <= 0x60 -> Forall (fun s => lo <= slot_table s < lo + 16) slots -> seen slots = slots.
Proof.
  intros L F. unfold seen. induction F as [|s r Hs _ IH]; [reflexivity|]. cbn [filter]. unfold visible at 1.
  replace (0x4E <=? slot_table s) with true by (symmetry; apply N.leb_le; lia). replace (slot_table s <=? 0x6F) with true by (symmetry; apply N.leb_le; lia).
  cbn [andb]. rewrite IH. reflexivity.
Qed.

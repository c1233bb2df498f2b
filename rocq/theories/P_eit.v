(** Proofs: EIT, both kinds of tables. *)
From Verif Require Import Prelude Layout Facts Facts2 S_ts S_crc S_utils S_psi M_bytes M_ts M_crc M_utils M_psi M_drive M_recv M_desc S_desc
  M_tables S_tables P_bytes P_crc P_utils P_psi P_mux P_mux2 P_sect P_mux3 P_desc P_desc2 P_desc3 W_psi W_desc P_tab P_tab2 P_tab3 P_tab4 P_tab5.

(** an unfinished section *)
Definition eraw (t : eit) (tb n a b c : N) (g : list eit_item) : psi :=
  mkPsi (head8 tb 240 (eit_pnr t) (eit_version t) n a ++
         layout [(16%nat, eit_tsid t); (16%nat, eit_onid t); (8%nat, b); (8%nat, c)] ++ flat_map eit_entry g) 0 0 0.

Lemma lay6 t b c : b < 256 -> c < 256 ->
  layout [(16%nat, eit_tsid t); (16%nat, eit_onid t); (8%nat, b); (8%nat, c)] =
  layout [(16%nat, eit_tsid t); (16%nat, eit_onid t)] ++ [b; c].
Proof. intros Hb Hc. lay. bytes_are. Qed.

Lemma eraw_sets t tb n a b c g a' b' c' : b < 256 -> c < 256 -> b' < 256 -> c' < 256 ->
  (d <- set (p_buffer (eraw t tb n a b c g)) 7 a' ;; d <- set d 12 b' ;; set d 13 c') = Ok (p_buffer (eraw t tb n a' b' c' g)).
Proof.
  intros Hb Hc Hb' Hc'. unfold eraw. cbn [p_buffer]. rewrite !lay6 by assumption.
  assert (L : exists x y z w, layout [(16%nat, eit_tsid t); (16%nat, eit_onid t)] = [x; y; z; w]) by (do 4 eexists; lay; reflexivity).
  destruct L as (x & y & z & w & ->). reflexivity.
Qed.
Lemma eraw_seg t tb n a b c g b' : b < 256 -> c < 256 -> b' < 256 ->
  set (p_buffer (eraw t tb n a b c g)) 12 b' = Ok (p_buffer (eraw t tb n a b' c g)).
Proof.
  intros Hb Hc Hb'. unfold eraw. cbn [p_buffer]. rewrite !lay6 by assumption.
  assert (L : exists x y z w, layout [(16%nat, eit_tsid t); (16%nat, eit_onid t)] = [x; y; z; w]) by (do 4 eexists; lay; reflexivity).
  destruct L as (x & y & z & w & ->). reflexivity.
Qed.
Lemma eraw_table t tb n a b c g c' : b < 256 -> c < 256 -> c' < 256 ->
  set (p_buffer (eraw t tb n a b c g)) 13 c' = Ok (p_buffer (eraw t tb n a b c' g)).
Proof.
  intros Hb Hc Hb'. unfold eraw. cbn [p_buffer]. rewrite !lay6 by assumption.
  assert (L : exists x y z w, layout [(16%nat, eit_tsid t); (16%nat, eit_onid t)] = [x; y; z; w]) by (do 4 eexists; lay; reflexivity).
  destruct L as (x & y & z & w & ->). reflexivity.
Qed.
Lemma eraw_0 t tb n a b c g v : set (p_buffer (eraw t tb n a b c g)) 0 v = Ok (p_buffer (eraw t v n a b c g)).
Proof. reflexivity. Qed.
Lemma eraw_6 t tb n a b c g v : set (p_buffer (eraw t tb n a b c g)) 6 v = Ok (p_buffer (eraw t tb v a b c g)).
Proof. reflexivity. Qed.
Lemma eraw_7 t tb n a b c g v : set (p_buffer (eraw t tb n a b c g)) 7 v = Ok (p_buffer (eraw t tb n v b c g)).
Proof. reflexivity. Qed.
Lemma eraw_with t tb n a b c g tb' n' a' b' c' g' :
  with_buffer (eraw t tb n a b c g) (p_buffer (eraw t tb' n' a' b' c' g')) = eraw t tb' n' a' b' c' g'.
Proof. reflexivity. Qed.
Lemma eraw_init m t : eit_init m t = Ok (eraw t (eit_table t) 0 0 0 0 []).
Proof. rewrite eit_init_spec. unfold eraw. cbn [flat_map]. rewrite app_nil_r. reflexivity. Qed.
Lemma eraw_item m t tb n a b c g i : eit_item_ok i ->
  eit_item_assemble m i (p_buffer (eraw t tb n a b c g)) = Ok (p_buffer (eraw t tb n a b c (g ++ [i]))).
Proof.
  intros H. rewrite (proj1 (eit_item_spec m i _ H)). unfold eraw. cbn [p_buffer]. rewrite flat_map_app. cbn [flat_map].
  rewrite app_nil_r, <- !app_assoc. reflexivity.
Qed.
Lemma eraw_len t tb n a b c g : length (p_buffer (eraw t tb n a b c g)) = (14 + length (flat_map eit_entry g))%nat.
Proof. unfold eraw. cbn [p_buffer]. rewrite !app_length, layout_length by reflexivity. reflexivity. Qed.
Lemma eraw_fin t tb n a b c g : tb < 256 -> n < 256 -> a < 256 -> Forall eit_item_ok g ->
  (18 + length (flat_map eit_entry g) <= N.to_nat 4098)%nat ->
  let s := eit_section t tb n a b c g in
  psi_finalize (eraw t tb n a b c g) = Ok (mkPsi s (length s) 0 0) /\ section_ok s.
Proof.
  intros Ht Hn Ha F L s. pose proof (eraw_len t tb n a b c g) as EL.
  assert (B : bytes (p_buffer (eraw t tb n a b c g))).
  { unfold eraw. cbn [p_buffer]. apply bytes_app. split; [apply head8_bytes; lia|]. apply bytes_app. split; [apply layout_bytes|].
    apply bytes_flat. eapply Forall_impl; [|exact F]. intros i Hi. apply eit_entry_bytes, Hi. }
  assert (E : finished (p_buffer (eraw t tb n a b c g)) = s).
  { unfold eraw. cbn [p_buffer]. change 240 with (176 + 64 * 1). rewrite fin_section by lia. reflexivity. }
  rewrite finalize_new; [|reflexivity|assumption|lia]. rewrite E. split.
  - do 2 f_equal. unfold s, eit_section. rewrite section_len, app_length, layout_length by reflexivity. tw. lia.
  - rewrite <- E. apply finished_ok; [assumption|lia].
Qed.

(** sending finished sections *)
Definition sealed (s : list N) : psi := mkPsi s (length s) 0 0.
Lemma eit_send_spec m pid : pid < 8192 -> forall ss cc dst, cc < 16 -> Forall section_ok ss ->
  eit_send m pid (map sealed ss) cc dst = Ok (next_cc pid cc ss, dst ++ concat (stream pid cc ss)).
Proof.
  intros Hp. induction ss as [|s ss IH]; intros cc dst Hc F.
  - cbn [map eit_send stream concat]. rewrite app_nil_r, next_nil by assumption. reflexivity.
  - inversion F as [|? ? K F']; subst. cbn [map eit_send].
    destruct (send_one m (sealed s) pid cc dst s Hp Hc eq_refl eq_refl (proj1 K)) as (q & E & Eq).
    { destruct K as (_ & _ & H8 & _). intros ->. cbn [length] in H8. lia. }
    rewrite E. cbn [bind]. rewrite Eq, IH by (try assumption; apply N.mod_lt; discriminate).
    rewrite stream_cons, concat_app, app_assoc. rewrite (stream_next pid cc) by assumption. reflexivity.
Qed.

(** ** present/following *)
Lemma eit_pf_spec m t last : eit_table t < 256 -> last < 256 -> forall items n, Forall eit_item_ok items ->
  Forall (fun i => (18 + length (eit_entry i) <= N.to_nat 4098)%nat) items ->
  let ss := numbered (fun i g => eit_section t (eit_table t) (N.of_nat i) last last (eit_table t) [g]) n items in
  eit_pf m t last n items = Ok (map sealed ss) /\ Forall section_ok ss.
Proof.
  intros Ht Hl. induction items as [|i items IH]; intros n F G ss; [split; [reflexivity|constructor]|].
  inversion F; inversion G; subst. subst ss. cbn [numbered eit_pf map].
  rewrite eraw_init. cbn [bind]. rewrite eraw_6. cbn [bind]. rewrite eraw_7. cbn [bind].
  rewrite eraw_seg by lia. cbn [bind]. rewrite eraw_table by lia. cbn [bind]. rewrite eraw_item by assumption. cbn [bind app].
  change (with_buffer _ _) with (eraw t (eit_table t) (cast U8 (N.of_nat n)) last last (eit_table t) [i]).
  destruct (eraw_fin t (eit_table t) (cast U8 (N.of_nat n)) last last (eit_table t) [i]) as [E K]; try assumption.
  { apply N.mod_lt. discriminate. } { constructor; [assumption|constructor]. } { cbn [flat_map]. rewrite app_nil_r. assumption. }
  rewrite E. cbn [bind]. destruct (IH (S n)) as [E2 K2]; [assumption|assumption|]. rewrite E2. cbn [bind].
  assert (Z : eit_section t (eit_table t) (cast U8 (N.of_nat n)) last last (eit_table t) [i] =
              eit_section t (eit_table t) (N.of_nat n) last last (eit_table t) [i]).
  { unfold eit_section. rewrite <- (section_trunc _ _ _ _ (N.of_nat n) last), (N.mod_small last) by assumption. reflexivity. }
  rewrite Z in *. split; [reflexivity|constructor; assumption].
Qed.

Lemma eit_pf_demux m t pid cc dst : eit_ok t -> eit_fits (N.to_nat 4098) t -> eit_table t = 0x4E \/ eit_table t = 0x4F ->
  (length (eit_items t) <= 256)%nat -> pid < 8192 -> cc < 16 ->
  let last := N.of_nat (length (eit_items t) - 1) in
  let ss := numbered (fun i g => eit_section t (eit_table t) (N.of_nat i) last last (eit_table t) [g]) 0 (eit_items t) in
  eit_demux m t pid cc dst = Ok (next_cc pid cc ss, dst ++ concat (stream pid cc ss)) /\ Forall section_ok ss.
Proof.
  intros (H1 & H2 & H3 & H4 & H5 & H6) F T L Hp Hc last ss. unfold eit_demux, eit_sections.
  destruct (eit_items t) as [|i items] eqn:E.
  - subst ss. cbn [numbered bind eit_send stream concat]. rewrite next_nil, app_nil_r by assumption. split; [reflexivity|constructor].
  - assert (O : (eit_table t =? 0x4E) || (eit_table t =? 0x4F) = true) by (destruct T as [-> | ->]; reflexivity). rewrite O.
    unfold eit_fits in F. rewrite E in F.
    assert (C : cast U8 (N.of_nat (length (i :: items) - 1)) = last).
    { unfold cast, U8. apply N.mod_small. cbn [length] in *. lia. }
    rewrite C. destruct (eit_pf_spec m t last H1 ltac:(subst last; cbn [length] in *; lia) (i :: items) 0 H6 F) as [E1 K]. fold ss in E1, K.
    rewrite E1. cbn [bind]. rewrite eit_send_spec by assumption. split; [reflexivity|assumption].
Qed.

Lemma eit_len t tb n a b c g : (18 <= length (eit_section t tb n a b c g))%nat.
Proof. unfold eit_section. slen. Qed.
Lemma eit_tables t tb n a b c g : eit_ok t -> tb < 256 -> field (eit_section t tb n a b c g) 0 8 = tb.
Proof. intros (H1 & H2 & H3 & _) Ht. unfold eit_section. apply (proj1 (section_head _ _ _ _ _ _ _ Ht H3 H2)). Qed.

(** a list of sections with table, number, last, segment_last, last_table, items *)
Definition slot : Type := N * N * N * N * N * list eit_item.
Definition no_slot : slot := (0, 0, 0, 0, 0, []).
Definition slot_items (s : slot) : list eit_item := let '(_, _, _, _, _, g) := s in g.
Definition slot_table (s : slot) : N := let '(tb, _, _, _, _, _) := s in tb.
Definition slot_section (t : eit) (s : slot) : list N := let '(tb, n, a, b, c, g) := s in eit_section t tb n a b c g.

Lemma eit_recover m t : eit_ok t -> forall ss old, Forall section_ok (map (slot_section t) ss) ->
  Forall (fun s => 0x4E <= slot_table s <= 0x6F) ss -> Forall (fun s => Forall eit_item_ok (slot_items s)) ss ->
  Forall (fun s => Forall (item_exact eiti_descs) (slot_items s)) ss -> ss <> [] ->
  parse_sections (eit_parse m) old (map (slot_section t) ss) =
  Ok (eit_add old (mkEit (slot_table (last ss no_slot)) (eit_version t) (eit_pnr t) (eit_tsid t) (eit_onid t) (concat (map slot_items ss)))).
Proof.
  intros H. pose proof H as (H1 & H2 & H3 & H4 & H5 & H6).
  induction ss as [|s ss IH]; intros old K T F X N0; [congruence|]. inversion K; inversion T; inversion F; inversion X; subst.
  cbn [map parse_sections concat]. destruct s as [[[[[tb n] a] b] c] g]. cbn [slot_section slot_table slot_items] in *.
  rewrite (eit_parse_section m old _ (eit_section t tb n a b c g) (mkEit tb (eit_version t) (eit_pnr t) (eit_tsid t) (eit_onid t) g)).
  2: { apply has_alone; assumption. } 2: { rewrite eit_tables by (try assumption; lia). assumption. } 2: { apply eit_len. }
  2: { apply eit_back; try assumption. change (2 ^ 8) with 256. lia. }
  cbn [bind]. destruct ss as [|s' ss].
  - cbn [map parse_sections concat last]. rewrite app_nil_r. reflexivity.
  - rewrite IH by (try assumption; discriminate). unfold eit_add. cbn [eit_items eit_table eit_version eit_pnr eit_tsid eit_onid].
    rewrite app_assoc. reflexivity.
Qed.

Fixpoint pf_slots (tb last : N) (n : nat) (items : list eit_item) : list slot :=
  match items with [] => [] | i :: r => (tb, N.of_nat n, last, last, tb, [i]) :: pf_slots tb last (S n) r end.
Lemma pf_slots_spec t tb last items : forall n,
  map (slot_section t) (pf_slots tb last n items) = numbered (fun i g => eit_section t tb (N.of_nat i) last last tb [g]) n items /\
  concat (map slot_items (pf_slots tb last n items)) = items /\
  Forall (fun s => slot_table s = tb /\ exists i, In i items /\ slot_items s = [i]) (pf_slots tb last n items).
Proof.
  induction items as [|i items IH]; intros n; [repeat split; constructor|]. destruct (IH (S n)) as (E1 & E2 & E3).
  cbn [pf_slots map numbered concat]. rewrite E1, E2. repeat split; try reflexivity. constructor.
  - split; [reflexivity|]. exists i. split; [left|]; reflexivity.
  - eapply Forall_impl; [|exact E3]. intros s (A & j & B & C). split; [assumption|]. exists j. split; [right|]; assumption.
Qed.
Lemma last_in {A} (l : list A) d : l <> [] -> In (last l d) l.
Proof.
  induction l as [|x l IH]; [congruence|]. intros _. destruct l as [|y l]; [left; reflexivity|]. right. apply IH. discriminate.
Qed.

Lemma eit_pf_recover m t last n old : eit_ok t -> eit_items t <> [] -> Forall (item_exact eiti_descs) (eit_items t) ->
  eit_table t = 0x4E \/ eit_table t = 0x4F ->
  let ss := numbered (fun i g => eit_section t (eit_table t) (N.of_nat i) last last (eit_table t) [g]) n (eit_items t) in
  Forall section_ok ss -> parse_sections (eit_parse m) old ss = Ok (eit_add old t).
Proof.
  intros H N0 X T ss K. pose proof H as (H1 & H2 & H3 & H4 & H5 & H6).
  destruct (pf_slots_spec t (eit_table t) last (eit_items t) n) as (E1 & E2 & E3). fold ss in E1. rewrite <- E1 in K |- *.
  assert (N1 : pf_slots (eit_table t) last n (eit_items t) <> []) by (destruct (eit_items t); [congruence|discriminate]).
  rewrite eit_recover; try assumption.
  - rewrite E2. pose proof (last_in _ no_slot N1) as I. rewrite Forall_forall in E3. apply E3 in I as [-> _]. destruct t; reflexivity.
  - eapply Forall_impl; [|exact E3]. intros s (-> & _). destruct T as [-> | ->]; lia.
  - eapply Forall_impl; [|exact E3]. intros s (_ & i & I & ->). rewrite Forall_forall in H6. constructor; [apply H6, I|constructor].
  - eapply Forall_impl; [|exact E3]. intros s (_ & i & I & ->). rewrite Forall_forall in X. constructor; [apply X, I|constructor].
Qed.

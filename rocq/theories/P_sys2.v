(** Proofs: the time section, packets of this library, and tables followed in a byte stream. *)
From Verif Require Import Prelude Layout Facts Facts2 S_ts S_crc S_utils S_psi M_bytes M_ts M_crc M_utils M_psi M_drive M_recv M_desc S_desc
  M_tables S_tables P_bytes P_ts P_crc P_utils P_psi P_mux P_mux2 P_sect P_mux3 P_desc P_desc2 P_desc3 W_psi W_desc P_tab P_tab2 P_tab5 P_tab6 P_tab7 P_tot W_tables
  M_reader S_reader P_reader M_system S_system P_sys.

(** ** the time section *)
Definition heard1_tdt (s : list N) : bool := (length s =? 8)%nat && (field s 0 8 =? 0x70).
Lemma tdt_blind m : blind (tdt_parse m). Proof. intros t s n i c i' c'. reflexivity. Qed.
Lemma tdt_waits m s : framed s -> heard1_tdt s = false -> waits (tdt_parse m) s.
Proof.
  intros F E t p d r Es Hr Hh. pose proof (framed_len s F) as L3. destruct F as [Hb Hl]. subst s. apply bytes_app in Hb as [Hb Hb'].
  apply tdt_pass; [exact (holds_consistent p d Hb Hh)|]. intros (A1 & A2).
  destruct (Nat.le_gt_cases 3 (length d)) as [H|H].
  - destruct (proj1 Hh H) as [Hs Hf]. rewrite section_length_app in Hl by assumption. unfold heard1_tdt in E.
    assert (E1 : length (d ++ r) = 8%nat) by lia. rewrite E1 in E. cbn [Nat.eqb andb] in E. rewrite Hf in A2.
    rewrite field_prefix in E by lia. apply N.eqb_neq in E. apply E. rewrite <- A2.
    rewrite <- (firstn_skipn (section_length d) d) at 1. apply field_prefix. rewrite firstn_length. lia.
  - destruct (proj2 Hh H) as [Hs _]. lia.
Qed.
Definition tdt_alone (l : list packet) (s : list N) : Prop := heard1_tdt s = true -> length l = 1%nat.
Lemma tdt_all_wait m ls ss : Forall2 carries ls ss -> Forall framed ss -> Forall2 tdt_alone ls ss ->
  Forall2 (fun l s => length l = 1%nat \/ waits (tdt_parse m) s) ls ss.
Proof.
  intros C F A. induction A as [|l s ls ss A1 A IH]; [constructor|]. inversion C; subst. inversion F; subst. constructor; [|auto].
  destruct (heard1_tdt s) eqn:E; [left; apply A1; assumption|right; apply tdt_waits; assumption].
Qed.
Lemma tdt_got t s m u : framed s -> heard1_tdt s = true -> tdt_reads s u -> tdt_parse m t (mkPsi s (length s) 0 0) = Ok u.
Proof.
  intros F E R. unfold heard1_tdt in E. rewrite andb_true_iff, Nat.eqb_eq, N.eqb_eq in E. destruct E as [E1 E2].
  apply (tdt_parse_section m t _ s u); cbn [p_buffer p_size]; [apply F|assumption|lia|rewrite firstn_all2 by lia; reflexivity|assumption|assumption].
Qed.
Lemma tdt_got_pass m t s : framed s -> heard1_tdt s = false -> tdt_parse m t (mkPsi s (length s) 0 0) = Ok t.
Proof.
  intros F E. apply tdt_pass; [apply consistent_got; assumption|]. cbn [p_buffer p_size]. intros [E1 E2]. unfold heard1_tdt in E.
  rewrite E1, E2 in E. discriminate.
Qed.
Lemma tdt_mixed m p old ls ss ts : Forall2 carries ls ss -> Forall framed ss -> Forall2 tdt_alone ls ss -> Forall2 tdt_reads (heard_tdt ss) ts ->
  exists q, receive m (tdt_parse m) p old (map encode (concat ls)) = Ok (q, last ts old).
Proof.
  intros C F A R. pose proof (receive_sections m (tdt_parse m) (tdt_blind m) ls ss C F (tdt_all_wait m ls ss C F A) p old) as H.
  rewrite (each_heard (tdt_parse m) heard1_tdt tdt_reads (fun _ u => u)) with (ts := ts) in H; [| | |assumption|exact R].
  - replace (last ts old) with (fold_left (fun _ u : N => u) ts old); [exact H|]. clear. revert old. induction ts as [|x ts IH]; intros old; [reflexivity|].
    cbn [fold_left]. rewrite IH, last_cons. reflexivity.
  - intros t s Fs E. apply tdt_got_pass; assumption.
  - intros t s u Fs E Ru. apply tdt_got; assumption.
Qed.
Lemma tdt_mixed_debug p old ls ss : Forall2 carries ls ss -> Forall framed ss -> Forall2 tdt_alone ls ss ->
  follows_debug tdt_parse tdt_reads (fun _ u => u) p old (map encode (concat ls)) (heard_tdt ss).
Proof.
  intros C F A. apply (follows_intro tdt_parse heard1_tdt tdt_reads (fun _ u => u) p old ls ss (tdt_blind Debug) C F).
  - exact (tdt_all_wait Debug ls ss C F A).
  - intros t s Fs E. apply tdt_got_pass; assumption.
  - intros t s Fs E. unfold heard1_tdt in E. rewrite andb_true_iff, Nat.eqb_eq, N.eqb_eq in E. destruct E as [E1 E2].
    pose proof (tdt_debug t (mkPsi s (length s) 0 0) (consistent_got s 0 0 Fs)) as X. cbn [p_buffer p_size] in X.
    rewrite (firstn_all2 (n := 8) s) in X by lia. apply X; [assumption|assumption|lia].
Qed.

(** ** the packets this library makes *)
Lemma firstn_number_carried pid ps : forall n cc first, carried (firstn n (number_k pid cc first ps)) = concat (firstn n ps).
Proof.
  induction ps as [|c ps IH]; intros n cc first; [rewrite !firstn_nil; reflexivity|]. destruct n as [|n]; [reflexivity|].
  cbn [number_k firstn]. unfold carried. cbn [filter k_haspl map k_payload concat]. fold (carried (firstn n (number_k pid ((cc + 1) mod 16) false ps))).
  rewrite IH. reflexivity.
Qed.
Lemma number_k_length pid ps : forall cc first, length (number_k pid cc first ps) = length ps.
Proof. intros. rewrite <- (map_length k_payload), number_k_payload. reflexivity. Qed.
Lemma section_carried pid cc s : framed s -> cc < 16 -> exists l, section_packets pid cc s = map encode l /\ carries l s /\ length l = S (length s / 184) /\
  exists ps, l = number_k pid cc true ps.
Proof.
  intros F Hcc. pose proof (framed_len s F) as L3. destruct F as [Hb Hl].
  destruct (section_chunks s Hb) as (c & ps & st & Ec & Hps & Hbc & Hlc & Ecat & Hst & Hlen).
  unfold section_packets. rewrite Ec, number_packets_k. cbn [number_k]. set (k := mkPacket _ _ _ _ _ _ _ _ _ _).
  set (ks := number_k pid ((cc + 1) mod 16) false ps). exists (k :: ks). split; [reflexivity|]. split.
  - exists k, ks, c, st. split; [reflexivity|]. split.
    { apply number_k_ok; [assumption| |cbn [length]; lia]. apply bytes_cons. split; [lia|assumption]. }
    do 3 (split; [reflexivity|]). split; [apply number_k_continues; assumption|]. split.
    { unfold ks. rewrite number_k_haspl. destruct ps as [|x ps]; [exact I|]. cbn [number_k k_payload]. lia. }
    split.
    { rewrite <- Ecat. f_equal. rewrite <- (firstn_all ks). unfold ks. rewrite firstn_number_carried, number_k_length, firstn_all. reflexivity. }
    intros n Hn. unfold ks in *. rewrite number_k_length in Hn. rewrite firstn_number_carried, app_length.
    assert (Hps' : Forall (fun c => bytes c /\ length c = 184%nat) (firstn n ps)).
    { rewrite <- (firstn_skipn n ps) in Hps. apply Forall_app in Hps. apply Hps. }
    rewrite concat_length184 by assumption. rewrite firstn_length, Nat.min_l by lia.
    pose proof (Nat.div_mod (length s) 184 ltac:(discriminate)). lia.
  - split; [cbn [length]; unfold ks; rewrite number_k_length; lia|]. exists ((0 :: c) :: ps). reflexivity.
Qed.
Lemma stream_carried pid ss : Forall framed ss -> forall cc, cc < 16 -> exists ls, stream pid cc ss = map encode (concat ls) /\ Forall2 carries ls ss /\
  Forall2 tdt_alone ls ss.
Proof.
  induction 1 as [|s ss F _ IH]; intros cc Hcc; [exists []; repeat split; constructor|].
  destruct (section_carried pid cc s F Hcc) as (l & E & C & L & _).
  destruct (IH ((cc + N.of_nat (length (section_packets pid cc s))) mod 16)) as (ls & E' & C' & A'); [apply N.mod_lt; discriminate|].
  exists (l :: ls). split; [|split; constructor; try assumption].
  - rewrite stream_cons, E'. rewrite E at 1. cbn [concat]. rewrite map_app. reflexivity.
  - intros H. rewrite L. unfold heard1_tdt in H. rewrite andb_true_iff, Nat.eqb_eq in H. destruct H as [-> _]. reflexivity.
Qed.

(** ** a table followed in a byte stream *)
Lemma to_sync_bytes l : bytes l -> bytes (to_sync l).
Proof. destruct (to_sync_split l) as (j & E & _). intros H. rewrite E in H. apply bytes_app in H. apply H. Qed.
Lemma follow_spec {T} m (parse : T -> psi -> res T) want pks : forall l s packet n p t, in_stream l pks -> s_data s = l -> bytes l -> no_fail (s_sched s) ->
  (188 <= length packet)%nat -> (length pks < n)%nat ->
  match receive m parse p t (filter (on want) pks) with
  | Ok (q, u) => exists s', follow n m parse want s packet p t = Ok (s', q, u) /\ s_data s' = []
  | Panic => follow n m parse want s packet p t = Panic
  | Hang => follow n m parse want s packet p t = Hang
  end.
Proof.
  induction pks as [|pk pks IH]; intros l s packet n p t Hs Hd Hb Hn Hl Hln.
  - destruct n as [|n]; [lia|]. inversion Hs as [? Hlt|]; subst. cbn [filter receive follow].
    destruct (ts_read_ok s packet Hl Hn) as (s' & p' & Hn' & L & K & H).
    destruct (Nat.ltb_spec (length (to_sync (s_data s))) 188); [|lia]. destruct H as [-> H]. cbn [bind].
    exists s'. auto.
  - destruct n as [|n]; [lia|]. cbn [length] in Hln.
    inversion Hs as [|? ? l' ? E Hlp Hs']; subst. cbn [follow].
    destruct (ts_read_ok s packet Hl Hn) as (s' & p' & Hn' & L & K & H).
    pose proof (to_sync_bytes _ Hb) as Hb'. rewrite E in Hb'. apply bytes_app in Hb' as [Hbp Hb'].
    rewrite E, app_length in H. destruct (Nat.ltb_spec (length pk + length l') 188); [lia|].
    destruct H as (-> & HD & HP). cbn [bind]. rewrite <- Hlp in HD at 1. rewrite <- Hlp in HP at 2.
    rewrite skipn_app, skipn_all, Nat.sub_diag in HD. cbn [app skipn] in HD.
    rewrite firstn_app, firstn_all, Nat.sub_diag, firstn_O, app_nil_r in HP. rewrite HP.
    rewrite get_pid_spec by (try assumption; lia). cbn [bind filter]. unfold on at 1.
    destruct (field pk 11 13 =? want).
    + cbn [receive]. destruct (psi_mux m p pk) as [p1| |]; cbn [bind]; [|reflexivity|reflexivity].
      destruct (parse t p1) as [t1| |]; cbn [bind]; [|reflexivity|reflexivity].
      exact (IH l' s' p' n p1 t1 Hs' HD Hb' Hn' ltac:(lia) ltac:(lia)).
    + exact (IH l' s' p' n p t Hs' HD Hb' Hn' ltac:(lia) ltac:(lia)).
Qed.

(** Proofs for C69: received tables are sendable *)
From Verif Require Import Prelude Facts Facts2 Layout S_ts S_crc S_utils S_psi S_text M_text M_desc S_desc S_forward M_tables S_tables S_system S_relay.
From Verif Require P_utils P_desc P_desc2 P_desc3 P_forward P_forward2 W_desc.

Lemma reads_tag b t d : reads b t d -> desc_tag d = t.
Proof. intros R. destruct R; reflexivity. Qed.

Lemma stable_reread b : stable b -> reread (text_read b).
Proof.
  unfold reread, rereadable. intros [->|[H|[[H L]|(cp & d & -> & C & D)]]].
  - left. split; reflexivity.
  - destruct b as [|x b]; cbn [hd] in H; [lia|]. right. cbn [text_read].
    destruct (N.eqb_spec x 21); [lia|]. destruct (N.leb_spec 32 x); [|lia]. cbn [t_data t_cp hd].
    split; [discriminate|]. left. split; [reflexivity|exact H].
  - destruct b as [|x [|y b]]; cbn [length] in L; try lia. cbn [hd] in H. right. cbn [text_read].
    destruct (N.eqb_spec x 21); [cbn [t_data t_cp]; split; [discriminate|]; right; right; reflexivity|].
    destruct (N.leb_spec 32 x); [lia|]. destruct (N.ltb_spec x 16); [|lia]. cbn [t_data t_cp].
    split; [discriminate|]. right. left. lia.
  - right. cbn [text_read]. change (16 =? 21) with false. change (32 <=? 16) with false. change (16 <? 16) with false.
    change (16 =? 16) with true. cbn [t_data t_cp]. split; [exact D|]. right. left. lia.
Qed.

Lemma sized_len t : length (sized t) = S (length (text t)).
Proof. reflexivity. Qed.
Lemma flat_len {A} (f : A -> list N) k l : Forall (fun x => length (f x) = k) l -> length (flat_map f l) = (k * length l)%nat.
Proof. induction 1 as [|x l H _ IH]; [cbn; lia|]. cbn [flat_map length]. rewrite app_length, H, IH. lia. Qed.
Lemma groups_len k b : (0 < k)%nat -> bytes b -> (length b mod k = 0)%nat -> (k * length (all_groups k b))%nat = length b.
Proof.
  intros Hk Hb L. destruct (P_forward.all_groups_ok k b Hk Hb L) as [C A]. rewrite <- C at 2. clear C.
  induction A as [|g l [_ H] _ IH]; [cbn; lia|]. cbn [length concat]. rewrite app_length, H, <- IH. lia.
Qed.

Ltac flt := apply P_forward2.f_lt; reflexivity.

Lemma kept_desc b t d : bytes b -> (length b < 256)%nat -> t < 256 -> reads b t d -> value_stays t b ->
  desc_ok d /\ exact d /\ (length (body d) <= length b)%nat.
Proof.
  intros Hb Hl Ht R F. enough (G : fields_ok d /\ exact d /\ no_items d /\ (length (body d) <= length b)%nat).
  { destruct G as (G1 & G2 & G3 & G4). split; [split; [exact G1|split; [lia|exact G3]]|]. split; assumption. }
  destruct R as [L|L|L|L|L|L| |L|L|L N1 N2 N3|L|L N1 N2 N3|L|L E|L|L E|L|items L E I|L|L|L|L G|L|L Q|L|L|L|t U];
    cbn [value_stays] in F; cbn [fields_ok exact no_items body raw_tag raw_data left_raw];
    try (split; [split; [exact Ht|exact Hb]|split; [exact L|split; [exact I|lia]]]).
  - (* 09 *) cbn [d09_caid d09_pid d09_data]. split; [split; [flt|split; [flt|apply bytes_skipn; exact Hb]]|]. split; [exact I|]. split; [exact I|].
    rewrite app_length, P_desc.layout_length by reflexivity. change (total_width _ / 8)%nat with 4%nat. rewrite skipn_length. lia.
  - (* 0A *) specialize (F L). destruct (P_forward.all_groups_ok 4 b ltac:(lia) Hb L) as [_ A].
    assert (C : Forall (fun i => code_ok (d0A_code i) /\ d0A_type i < 2 ^ 8) (map read_0A (all_groups 4 b))).
    { apply Forall_map. rewrite Forall_forall in *. intros g Hg. destruct (A g Hg) as [A1 A2]. cbn [read_0A d0A_code d0A_type].
      split; [|flt]. apply P_forward2.code3; [apply bytes_firstn; assumption|rewrite firstn_length; lia|auto]. }
    split; [exact C|]. split; [apply Forall_map; eapply Forall_impl; [|exact F]; intros g H; exact (stable_reread _ H)|]. split; [exact I|].
    rewrite (flat_len item_0A 4); [rewrite map_length, groups_len by (assumption || lia); lia|].
    eapply Forall_impl; [|exact C]. intros i [[_ H] _]. unfold item_0A. rewrite app_length, H, P_desc.layout_length; reflexivity.
  - (* 0E *) split; [flt|]. split; [exact I|]. split; [exact I|]. rewrite P_desc.layout_length by reflexivity. change (total_width _ / 8)%nat with 3%nat. lia.
  - (* 40 *) destruct F as [F1 F2]. split; [apply P_forward.text_read_ok; exact Hb|]. split; [exact F1|]. split; [exact I|exact F2].
  - (* 41 *) assert (C : Forall (fun i => d41_sid i < 2 ^ 16 /\ d41_type i < 2 ^ 8) (map read_41 (all_groups 3 b))).
    { apply Forall_map, Forall_forall. intros g _. cbn [read_41 d41_sid d41_type]. split; flt. }
    split; [exact C|]. split; [exact I|]. split; [exact I|].
    rewrite (flat_len item_41 3); [rewrite map_length, groups_len by (assumption || lia); lia|].
    apply Forall_forall. intros i _. unfold item_41. rewrite P_desc.layout_length; reflexivity.
  - (* 43 *) cbn [d43_freq d43_orbital d43_we d43_pol d43_rof d43_s2 d43_mod d43_rate d43_fec].
    pose proof (P_utils.nib_value_ok_lt 8 _ N1) as B1. pose proof (P_utils.nib_value_ok_lt 4 _ N2) as B2. pose proof (P_utils.nib_value_ok_lt 6 _ N3) as B3.
    change (10 ^ N.of_nat 8) with 100000000 in B1. change (10 ^ N.of_nat 4) with 10000 in B2. change (10 ^ N.of_nat 6) with 1000000 in B3.
    change (10 ^ 9) with 1000000000. change (10 ^ 6) with 1000000.
    split; [repeat split; try flt; lia|]. split; [split; rewrite N.mul_comm; apply N.mod_mul; lia|]. split; [exact I|].
    rewrite P_desc.layout_length by reflexivity. change (total_width _ / 8)%nat with 11%nat. lia.
  - (* 44 *) cbn [d44_freq d44_outer d44_mod d44_rate d44_fec]. pose proof (P_utils.nib_value_ok_lt 6 _ N2) as B3. change (10 ^ N.of_nat 6) with 1000000 in B3. change (10 ^ 6) with 1000000.
    split; [repeat split; try flt; assumption|]. split; [rewrite N.mul_comm; apply N.mod_mul; lia|]. split; [exact I|].
    rewrite P_desc.layout_length by reflexivity. change (total_width _ / 8)%nat with 11%nat. lia.
  - (* 48 *) destruct (F L E) as [[F1 G1] [F2 G2]]. cbn [d48_type d48_provider d48_name].
    rewrite !P_forward2.wire_text. rewrite P_forward2.wire_len in G1, G2 by lia.
    split; [split; [flt|split; apply P_forward.text_read_ok, P_forward2.wire_bytes; exact Hb]|]. split; [split; assumption|]. split; [exact I|].
    rewrite !app_length, !sized_len, P_desc.layout_length by reflexivity. change (total_width _ / 8)%nat with 1%nat. lia.
  - (* 4D *) destruct (F L E) as (F0 & [F1 G1] & [F2 G2]). cbn [d4D_lang d4D_name d4D_text].
    assert (C : code_ok (text_read (firstn 3 b))) by (apply P_forward2.code3; [apply bytes_firstn; exact Hb|rewrite firstn_length; lia|exact F0]).
    rewrite !P_forward2.wire_text. rewrite P_forward2.wire_len in G1, G2 by lia.
    split; [split; [exact C|split; apply P_forward.text_read_ok, P_forward2.wire_bytes; exact Hb]|].
    split; [split; [exact (stable_reread _ F0)|split; assumption]|]. split; [exact I|].
    rewrite !app_length, !sized_len. destruct C as [_ ->]. lia.
  - (* 4E *) destruct (F L E) as (F0 & Z & [F1 G1]). cbn [d4E_num d4E_last d4E_lang d4E_text d4E_items]. rewrite Z in *.
    assert (C : code_ok (text_read (firstn 3 (skipn 1 b)))).
    { apply P_forward2.code3; [apply bytes_firstn, bytes_skipn; exact Hb|rewrite firstn_length, skipn_length; lia|exact F0]. }
    assert (It : items = []) by (inversion I; [reflexivity|lia]). subst items.
    change (5 + 0)%nat with 5%nat in *. rewrite !P_forward2.wire_text. rewrite P_forward2.wire_len in G1 by lia.
    split; [split; [flt|split; [flt|split; [exact C|split; [constructor|apply P_forward.text_read_ok, P_forward2.wire_bytes; exact Hb]]]]|].
    split; [split; [exact (stable_reread _ F0)|exact F1]|]. split; [reflexivity|].
    cbn [flat_map app length]. rewrite !app_length. cbn [length]. rewrite sized_len, P_desc.layout_length by reflexivity.
    change (total_width _ / 8)%nat with 1%nat. destruct C as [_ ->]. lia.
  - (* 52 *) split; [flt|]. split; [exact I|]. split; [exact I|]. cbn [length]. lia.
  - (* 58 *) specialize (F L). destruct (P_forward.all_groups_ok 13 b ltac:(lia) Hb L) as [_ A].
    assert (C : Forall ok_58i (map read_58 (all_groups 13 b))).
    { apply Forall_map. rewrite Forall_forall in *. intros g Hg. destruct (A g Hg) as [A1 A2]. destruct (F g Hg) as (F0 & F1 & F2 & F3).
      destruct (G g Hg) as (_ & _ & G3 & _). unfold ok_58i. cbn [read_58 d58_code d58_region d58_pol d58_offset d58_time d58_next].
      split; [apply P_forward2.code3; [apply bytes_firstn; assumption|rewrite firstn_length; lia|exact F0]|].
      split; [flt|]. split; [flt|]. split; [lia|]. split; [|lia].
      pose proof (field_lt g 48 16) as L4. change (2 ^ N.of_nat 16) with 65536 in L4. unfold in_day in F2. unfold MJD_END, MJD_EPOCH in *. lia. }
    split; [exact C|]. split.
    { apply Forall_map. eapply Forall_impl; [|exact F]. intros g (F0 & F1 & _ & F3). cbn [read_58 d58_code d58_offset d58_next].
      split; [exact (stable_reread _ F0)|]. split; assumption. }
    split; [exact I|]. rewrite (flat_len item_58 13); [rewrite map_length, groups_len by (assumption || lia); lia|].
    eapply Forall_impl; [|exact C]. intros i [[_ H] _]. unfold item_58. rewrite app_length, H, P_desc.layout_length; reflexivity.
  - (* 5A *) cbn [d5A_freq d5A_bw d5A_prio d5A_ts d5A_fec d5A_mod d5A_hier d5A_hp d5A_lp d5A_guard d5A_trans d5A_other].
    split; [split; [exact Q|repeat split; flt]|]. split; [rewrite N.mul_comm; apply N.mod_mul; lia|]. split; [exact I|].
    rewrite P_desc.layout_length by reflexivity. change (total_width _ / 8)%nat with 11%nat. lia.
  - (* 83 *) split; [apply Forall_map, Forall_forall; intros g _; cbn [read_83 d83_sid d83_visible d83_lcn]; repeat split; flt|].
    split; [exact I|]. split; [exact I|].
    rewrite (flat_len item_83 4); [rewrite map_length, groups_len by (assumption || lia); lia|].
    apply Forall_forall. intros i _. unfold item_83. rewrite P_desc.layout_length; reflexivity.
  - split; [split; [exact Ht|exact Hb]|]. split; [apply W_desc.left_raw_other; exact U|]. split; [exact I|lia].
Qed.

Lemma loop_bytes recs : bytes (loop_of recs) -> Forall (fun r => bytes (snd r) /\ (length (snd r) < 256)%nat /\ fst r < 256) recs.
Proof.
  induction recs as [|[t b] recs IH]; intros H; constructor.
  - cbn [loop_of flat_map fst snd] in H. apply Forall_app in H. destruct H as [H _]. unfold tlv in H.
    inversion H as [|? ? H1 H2]; subst. inversion H2 as [|? ? H3 H4]; subst. cbn [fst snd]. split; [exact H4|]. split; [|exact H1].
    lia.
  - apply IH. cbn [loop_of flat_map] in H. apply Forall_app in H. exact (proj2 H).
Qed.

Lemma kept_loop l ds : bytes l -> loop_reads l ds -> loop_kept l ->
  Forall desc_ok ds /\ loop_exact ds /\ (length (wire ds) <= length l)%nat.
Proof.
  intros Hb (recs & tail & E & I & R) K. specialize (K recs tail E I). subst l. apply Forall_app in Hb. destruct Hb as [Hb _].
  apply loop_bytes in Hb. rewrite app_length.
  enough (G : Forall desc_ok ds /\ loop_exact ds /\ (length (wire ds) <= length (loop_of recs))%nat) by (destruct G as (G1 & G2 & G3); repeat split; try assumption; lia).
  clear I tail. unfold loop_exact, wire. induction R as [|[t b] d recs ds R _ IH]; [repeat split; constructor|].
  inversion K as [|? ? K1 K2]; subst. inversion Hb as [|? ? H1 H2]; subst. cbn [fst snd] in *. destruct H1 as (H1 & H3 & H4).
  destruct (IH H2 K2) as (I1 & I2 & I3). destruct (kept_desc b t d H1 H3 H4 R K1) as (J1 & J2 & J3).
  repeat split; try (constructor; assumption). cbn [map loop_of flat_map fst snd]. rewrite !app_length.
  unfold loop_of, tlv in *. cbn [length]. lia.
Qed.

Lemma kept_entries {A} h (rd : list N -> A -> Prop) P l items : bytes l -> entries_read h rd l items -> entries_kept h P l ->
  Forall (fun i => exists r, bytes r /\ (h <= length r <= length l)%nat /\ length r = entry_len h r /\ rd r i /\ P r) items.
Proof.
  intros Hb (recs & tail & E & C & En & R) K. specialize (K recs tail E C En). subst l. apply Forall_app in Hb. destruct Hb as [Hb _].
  rewrite app_length. generalize (length tail). clear tail C. intros k.
  assert (G : forall n, (length (concat recs) <= n)%nat ->
    Forall (fun i => exists r, bytes r /\ (h <= length r <= n)%nat /\ length r = entry_len h r /\ rd r i /\ P r) items); [|apply G; lia].
  induction R as [|r i recs items R _ IH]; intros n Hn; constructor.
  - cbn [concat] in *. rewrite app_length in Hn. apply Forall_app in Hb. inversion En as [|? ? [E1 E2] _]; subst. inversion K; subst.
    exists r. repeat split; try tauto; lia.
  - cbn [concat] in *. rewrite app_length in Hn. apply Forall_app in Hb. inversion En; subst. inversion K; subst.
    apply IH; try tauto. lia.
Qed.

Lemma inner_bytes a s : bytes s -> bytes (inner a s).
Proof. intros H. apply bytes_firstn, bytes_skipn, H. Qed.
Lemma inner_length a s : (length (inner a s) <= length s - 4 - a)%nat.
Proof. unfold inner. rewrite firstn_length. lia. Qed.

(** the descriptors of one entry of [r] bytes, of which [h] are the header *)
Lemma kept_descs h r ds : (3 <= h)%nat -> bytes r -> (h <= length r)%nat -> length r = entry_len h r -> loop_reads (skipn h r) ds -> loop_kept (skipn h r) ->
  loop_ok ds /\ loop_exact ds /\ (h + length (wire ds) <= length r)%nat.
Proof.
  intros Hh Br Lr Er Rl Kl. destruct (kept_loop _ _ (bytes_skipn h r Br) Rl Kl) as (O & X & W). rewrite skipn_length in W.
  assert (Er' : (length r < h + N.to_nat 4096)%nat).
  { rewrite Er. unfold entry_len. pose proof (field_lt r (8 * h - 12) 12) as F. change (2 ^ N.of_nat 12) with 4096 in F. lia. }
  split; [split; [exact O|lia]|]. split; [exact X|lia].
Qed.

(** ** the items of a section *)
Definition pmti_good (i : pmt_item) : Prop := pmt_item_ok i /\ (16 + length (pmt_entry i) <= N.to_nat 4098)%nat /\ loop_exact (pmti_descs i).
Definition niti_good (i : nit_item) : Prop := nit_item_ok i /\ (16 + length (nit_entry i) <= N.to_nat 4098)%nat /\ loop_exact (niti_descs i).
Definition sdti_good (i : sdt_item) : Prop := sdt_item_ok i /\ (15 + length (sdt_entry i) <= N.to_nat 4098)%nat /\ loop_exact (sdti_descs i).
Definition eiti_good (i : eit_item) : Prop := eit_item_ok i /\ (18 + length (eit_entry i) <= N.to_nat 4098)%nat /\ loop_exact (eiti_descs i).

Lemma pmt_items_good l items : bytes l -> (16 + length l <= N.to_nat 4098)%nat -> entries_read 5 pmt_read l items ->
  entries_kept 5 (fun r => loop_kept (skipn 5 r)) l -> Forall pmti_good items.
Proof.
  intros Hb Hl Re K. eapply Forall_impl; [|exact (kept_entries 5 _ _ _ _ Hb Re K)]. clear K Re.
  intros i (r & Br & Lr & Er & (dl & -> & Rl) & Kl).
  destruct (kept_descs 5 r dl ltac:(lia) Br ltac:(lia) Er Rl Kl) as (O & X & W).
  unfold pmti_good, pmt_item_ok, pmt_entry. cbn [pmti_type pmti_pid pmti_descs].
  rewrite app_length, P_desc.layout_length by reflexivity. change (total_width _ / 8)%nat with 5%nat.
  split; [split; [flt|split; [flt|exact O]]|]. split; [lia|exact X].
Qed.
Lemma nit_items_good l items : bytes l -> (16 + length l <= N.to_nat 4098)%nat -> entries_read 6 nit_read l items ->
  entries_kept 6 (fun r => loop_kept (skipn 6 r)) l -> Forall niti_good items.
Proof.
  intros Hb Hl Re K. eapply Forall_impl; [|exact (kept_entries 6 _ _ _ _ Hb Re K)]. clear K Re.
  intros i (r & Br & Lr & Er & (dl & -> & Rl) & Kl).
  destruct (kept_descs 6 r dl ltac:(lia) Br ltac:(lia) Er Rl Kl) as (O & X & W).
  unfold niti_good, nit_item_ok, nit_entry. cbn [niti_tsid niti_onid niti_descs].
  rewrite app_length, P_desc.layout_length by reflexivity. change (total_width _ / 8)%nat with 6%nat.
  split; [split; [flt|split; [flt|exact O]]|]. split; [lia|exact X].
Qed.
Lemma sdt_items_good l items : bytes l -> (15 + length l <= N.to_nat 4098)%nat -> entries_read 5 sdt_read l items ->
  entries_kept 5 (fun r => loop_kept (skipn 5 r)) l -> Forall sdti_good items.
Proof.
  intros Hb Hl Re K. eapply Forall_impl; [|exact (kept_entries 5 _ _ _ _ Hb Re K)]. clear K Re.
  intros i (r & Br & Lr & Er & (dl & -> & Rl) & Kl).
  destruct (kept_descs 5 r dl ltac:(lia) Br ltac:(lia) Er Rl Kl) as (O & X & W).
  unfold sdti_good, sdt_item_ok, sdt_entry. cbn [sdti_pnr sdti_sched sdti_pf sdti_status sdti_ca sdti_descs].
  rewrite app_length, P_desc.layout_length by reflexivity. change (total_width _ / 8)%nat with 5%nat.
  split; [repeat (split; [flt|]); exact O|]. split; [lia|exact X].
Qed.
Lemma time_end d v : d < 65536 -> MJD_EPOCH <= d -> seconds v < 86400 -> time_at d v < MJD_END.
Proof. unfold time_at, MJD_END, MJD_EPOCH. intros. lia. Qed.
Lemma eit_items_good l items : bytes l -> (18 + length l <= N.to_nat 4098)%nat -> entries_read 12 eit_read l items ->
  entries_kept 12 (fun r => loop_kept (skipn 12 r) /\ in_day (field r 32 24) /\ in_day (field r 56 24)) l -> Forall eiti_good items.
Proof.
  intros Hb Hl Re K. eapply Forall_impl; [|exact (kept_entries 12 _ _ _ _ Hb Re K)]. clear K Re.
  intros i (r & Br & Lr & Er & (dl & -> & Tk & _ & Rl) & Kl & D1 & D2).
  destruct (kept_descs 12 r dl ltac:(lia) Br ltac:(lia) Er Rl Kl) as (O & X & W).
  unfold eiti_good, eit_item_ok, eit_entry. cbn [eiti_id eiti_start eiti_duration eiti_status eiti_ca eiti_descs].
  rewrite app_length, P_desc.layout_length by reflexivity. change (total_width _ / 8)%nat with 12%nat.
  split.
  - split; [flt|]. split; [apply time_end; [exact (field_lt r 16 16)|exact (proj1 Tk)|exact D1]|]. split; [exact D2|].
    split; [flt|]. split; [flt|exact O].
  - split; [lia|exact X].
Qed.

(** ** tables collected from several sections *)
Section collected.
Context {T : Type} (add : T -> T -> T) (good head : T -> Prop).
Hypothesis Hgood : forall a b, good a -> good b -> good (add a b).
Hypothesis Hhead : forall a b, head b -> head (add a b).
Lemma fold_good ts : forall t, good t -> Forall good ts -> good (fold_left add ts t).
Proof. induction ts as [|u ts IH]; intros t H F; [exact H|]. inversion F; subst. cbn [fold_left]. apply IH; [apply Hgood; assumption|assumption]. Qed.
Lemma fold_head ts : forall t, ts <> [] -> Forall head ts -> head (fold_left add ts t).
Proof.
  induction ts as [|u ts IH]; intros t H F; [congruence|]. inversion F; subst. cbn [fold_left].
  destruct ts as [|v ts]; [apply Hhead; assumption|]. apply IH; [discriminate|assumption].
Qed.
End collected.

Lemma forall2_forall {A B} (R : A -> B -> Prop) (P : A -> Prop) (Q : B -> Prop) l l' :
  (forall a b, R a b -> P a -> Q b) -> Forall2 R l l' -> Forall P l -> Forall Q l'.
Proof. intros H F. induction F as [|a b l l' Rab _ IH]; intros G; constructor; inversion G; subst; eauto. Qed.

Definition sect_ok (s : list N) : Prop := bytes s /\ (length s <= N.to_nat 4098)%nat.

Lemma pat_collected ss ts : ts <> [] -> Forall2 pat_reads ss ts ->
  (length (pat_items (fold_left pat_add ts pat_default)) <= 253)%nat -> pat_sendable (fold_left pat_add ts pat_default).
Proof.
  intros Ne R L.
  assert (H1 : Forall (fun t => pat_version t < 2 ^ 5 /\ pat_tsid t < 2 ^ 16) ts).
  { clear Ne L. induction R as [|s t ss ts R _ IH]; constructor; [|exact IH]. rewrite R. cbn [pat_version pat_tsid]. split; flt. }
  assert (H2 : Forall (fun t => Forall pat_item_ok (pat_items t)) ts).
  { clear - R. induction R as [|s t ss ts R _ IH]; constructor; [|exact IH]. rewrite R. cbn [pat_items]. apply Forall_map.
    apply Forall_forall. intros g _. split; cbn [pat_read pati_pnr pati_pid]; flt. }
  split; [|exact L].
  pose proof (fold_head pat_add (fun t => pat_version t < 2 ^ 5 /\ pat_tsid t < 2 ^ 16) (fun a b H => H) ts pat_default Ne H1) as G1.
  pose proof (fold_good pat_add (fun t => Forall pat_item_ok (pat_items t))
    (fun a b Ha Hb => proj2 (Forall_app _ (pat_items a) (pat_items b)) (conj Ha Hb)) ts pat_default ltac:(constructor) H2) as G2.
  cbn beta in G1, G2. split; [exact (proj1 G1)|split; [exact (proj2 G1)|exact G2]].
Qed.

Lemma pmt_collected ss ts : ts <> [] -> Forall sect_ok ss -> Forall2 pmt_reads ss ts -> Forall pmt_kept ss ->
  pmt_sendable (fold_left pmt_add ts pmt_default).
Proof.
  intros Ne S R K.
  set (head := fun t => pmt_version t < 2 ^ 5 /\ pmt_pnr t < 2 ^ 16 /\ pmt_pcr t < 2 ^ 13).
  set (good := fun t => pmt_descs t = [] /\ Forall pmti_good (pmt_items t)).
  assert (H : Forall (fun t => head t /\ good t) ts).
  { apply (forall2_forall pmt_reads (fun s => sect_ok s /\ pmt_kept s) (fun t => head t /\ good t) ss ts); [|exact R|].
    - intros s t (ds & items & -> & L & Rd & Re) [[Hb Hl] [Z Ke]]. rewrite Z in *. change (12 + N.to_nat 0)%nat with 12%nat in *.
      split; [unfold head; cbn [pmt_version pmt_pnr pmt_pcr]; repeat split; flt|]. split; cbn [pmt_descs pmt_items].
      + destruct Rd as (recs & tail & E & _ & Rr). destruct recs as [|[? ?] ?]; [inversion Rr; reflexivity|discriminate E].
      + apply (pmt_items_good (inner 12 s)); [apply inner_bytes; exact Hb| |exact Re|exact Ke].
        pose proof (inner_length 12 s). lia.
    - rewrite Forall_forall in *. intros s Hs. split; auto. }
  pose proof (fold_head pmt_add head (fun a b X => X) ts pmt_default Ne ltac:(eapply Forall_impl; [|exact H]; intros ? [X _]; exact X)) as G1.
  assert (G2 : good (fold_left pmt_add ts pmt_default)).
  { apply fold_good; [|split; [reflexivity|constructor]|eapply Forall_impl; [|exact H]; intros ? [_ X]; exact X].
    intros a b [A1 A2] [B1 B2]. split; cbn [pmt_add pmt_descs pmt_items]; [rewrite A1, B1; reflexivity|apply Forall_app; auto]. }
  destruct G1 as (V1 & V2 & V3). destruct G2 as [D G]. unfold pmt_sendable, pmt_ok, pmt_fits, exact_items, loop_ok. rewrite D.
  repeat (split; try assumption); try constructor; try (cbn; lia); try (eapply Forall_impl; [|exact G]; unfold pmti_good; intros; tauto).
Qed.

Lemma wire_app a b : wire (a ++ b) = wire a ++ wire b.
Proof. unfold wire, loop_of. rewrite map_app, flat_map_app. reflexivity. Qed.

Lemma nit_collected ss ts : ts <> [] -> Forall sect_ok ss -> Forall2 nit_reads ss ts -> Forall nit_kept ss ->
  Forall (fun s => id_nit (field s 0 8) = true) ss -> (16 + network_bytes ss <= N.to_nat 4098)%nat ->
  nit_sendable (fold_left nit_add ts nit_default).
Proof.
  intros Ne S R K Id Hn.
  set (head := fun t => (nit_table t = 0x40 \/ nit_table t = 0x41) /\ nit_version t < 2 ^ 5 /\ nit_network t < 2 ^ 16).
  set (good := fun t => Forall niti_good (nit_items t)).
  set (descs := fun (s : list N) t => Forall desc_ok (nit_descs t) /\ loop_exact (nit_descs t) /\ (length (wire (nit_descs t)) <= N.to_nat (field s 68 12))%nat).
  assert (A : forall s t, nit_reads s t -> sect_ok s /\ nit_kept s /\ id_nit (field s 0 8) = true -> head t /\ good t /\ descs s t).
  { intros s t (ds & items & -> & L & Rd & Re) ([Hb Hl] & [Kd Ke] & I). set (n := N.to_nat (field s 68 12)) in *.
    split; [|split].
    - unfold head; cbn [nit_table nit_version nit_network]. split; [|split; flt]. unfold id_nit in I. apply orb_true_iff in I.
      rewrite !N.eqb_eq in I. exact I.
    - unfold good. cbn [nit_items]. apply (nit_items_good (inner (12 + n) s)); [apply inner_bytes; exact Hb| |exact Re|exact Ke].
      pose proof (inner_length (12 + n) s). lia.
    - unfold descs. cbn [nit_descs]. destruct (kept_loop _ _ (bytes_firstn n _ (bytes_skipn 10 s Hb)) Rd Kd) as (O & X & W).
      split; [exact O|]. split; [exact X|]. rewrite firstn_length in W. unfold n in *. lia. }
  assert (H : Forall (fun t => head t /\ good t) ts).
  { apply (forall2_forall nit_reads (fun s => sect_ok s /\ nit_kept s /\ id_nit (field s 0 8) = true) (fun t => head t /\ good t) ss ts); [|exact R|].
    - intros s t Rs Hs. destruct (A s t Rs Hs) as (? & ? & _). auto.
    - rewrite Forall_forall in *. intros s Hs. auto. }
  assert (D : forall t0, Forall desc_ok (nit_descs t0) -> loop_exact (nit_descs t0) ->
    let T := fold_left nit_add ts t0 in Forall desc_ok (nit_descs T) /\ loop_exact (nit_descs T) /\
    (length (wire (nit_descs T)) <= length (wire (nit_descs t0)) + network_bytes ss)%nat).
  { clear H Hn Ne. revert S K Id. induction R as [|s t ss ts Rs _ IH]; intros S K Id t0 D1 D2; cbn [fold_left].
    - repeat split; try assumption. lia.
    - inversion S; subst. inversion K; subst. inversion Id; subst.
      destruct (A s t Rs ltac:(auto)) as (_ & _ & E1 & E2 & E3).
      destruct (IH ltac:(assumption) ltac:(assumption) ltac:(assumption) (nit_add t0 t)) as (F1 & F2 & F3).
      + cbn [nit_add nit_descs]. apply Forall_app. auto.
      + unfold loop_exact in *. cbn [nit_add nit_descs]. apply Forall_app. auto.
      + split; [exact F1|]. split; [exact F2|]. cbn [nit_add nit_descs] in F3. rewrite wire_app, app_length in F3.
        unfold network_bytes in *. cbn [total fold_right] in *. unfold total in F3. lia. }
  destruct (D nit_default ltac:(constructor) ltac:(constructor)) as (D1 & D2 & D3). cbn [nit_descs nit_default wire map loop_of flat_map length] in D3.
  pose proof (fold_head nit_add head (fun a b X => X) ts nit_default Ne ltac:(eapply Forall_impl; [|exact H]; intros ? [X _]; exact X)) as (V1 & V2 & V3).
  assert (G : good (fold_left nit_add ts nit_default)).
  { apply fold_good; [|constructor|eapply Forall_impl; [|exact H]; intros ? [_ X]; exact X].
    intros a b A1 B1. unfold good in *. cbn [nit_add nit_items]. apply Forall_app; auto. }
  unfold nit_sendable, nit_ok, nit_fits, exact_items, loop_ok.
  repeat (split; try assumption); try lia; try (eapply Forall_impl; [|exact G]; unfold niti_good; intros; tauto).
Qed.

Lemma sdt_collected ss ts : ts <> [] -> Forall sect_ok ss -> Forall2 sdt_reads ss ts -> Forall sdt_kept ss ->
  Forall (fun s => id_sdt (field s 0 8) = true) ss -> sdt_sendable (fold_left sdt_add ts sdt_default).
Proof.
  intros Ne S R K Id.
  set (head := fun t => (sdt_table t = 0x42 \/ sdt_table t = 0x46) /\ sdt_version t < 2 ^ 5 /\ sdt_tsid t < 2 ^ 16 /\ sdt_onid t < 2 ^ 16).
  set (good := fun t => Forall sdti_good (sdt_items t)).
  assert (H : Forall (fun t => head t /\ good t) ts).
  { apply (forall2_forall sdt_reads (fun s => sect_ok s /\ sdt_kept s /\ id_sdt (field s 0 8) = true) (fun t => head t /\ good t) ss ts); [|exact R|].
    - intros s t (items & -> & Re) ([Hb Hl] & Ke & I). split.
      + unfold head; cbn [sdt_table sdt_version sdt_tsid sdt_onid]. split; [|repeat split; flt]. unfold id_sdt in I. apply orb_true_iff in I.
        rewrite !N.eqb_eq in I. exact I.
      + unfold good. cbn [sdt_items]. apply (sdt_items_good (inner 11 s)); [apply inner_bytes; exact Hb| |exact Re|exact Ke].
        pose proof (inner_length 11 s). lia.
    - rewrite Forall_forall in *. intros s Hs. auto. }
  pose proof (fold_head sdt_add head (fun a b X => X) ts sdt_default Ne ltac:(eapply Forall_impl; [|exact H]; intros ? [X _]; exact X)) as (V1 & V2 & V3 & V4).
  assert (G : good (fold_left sdt_add ts sdt_default)).
  { apply fold_good; [|constructor|eapply Forall_impl; [|exact H]; intros ? [_ X]; exact X].
    intros a b A1 B1. unfold good in *. cbn [sdt_add sdt_items]. apply Forall_app; auto. }
  unfold sdt_sendable, sdt_ok, sdt_fits, exact_items, loop_ok.
  repeat (split; try assumption); try lia; try (eapply Forall_impl; [|exact G]; unfold sdti_good; intros; tauto).
Qed.

Lemma eit_collected ss ts : ts <> [] -> Forall sect_ok ss -> Forall2 eit_reads ss ts -> Forall eit_kept ss ->
  Forall (fun s => field s 0 8 = 0x4E \/ field s 0 8 = 0x4F) ss -> (1 <= length (eit_items (fold_left eit_add ts eit_default)) <= 256)%nat ->
  pf_sendable (fold_left eit_add ts eit_default).
Proof.
  intros Ne S R K Id Hn.
  set (head := fun t => (eit_table t = 0x4E \/ eit_table t = 0x4F) /\ eit_version t < 2 ^ 5 /\ eit_pnr t < 2 ^ 16 /\ eit_tsid t < 2 ^ 16 /\ eit_onid t < 2 ^ 16).
  set (good := fun t => Forall eiti_good (eit_items t)).
  assert (H : Forall (fun t => head t /\ good t) ts).
  { apply (forall2_forall eit_reads (fun s => sect_ok s /\ eit_kept s /\ (field s 0 8 = 0x4E \/ field s 0 8 = 0x4F)) (fun t => head t /\ good t) ss ts); [|exact R|].
    - intros s t (items & -> & Re) ([Hb Hl] & Ke & I). split.
      + unfold head; cbn [eit_table eit_version eit_pnr eit_tsid eit_onid]. split; [exact I|repeat split; flt].
      + unfold good. cbn [eit_items]. apply (eit_items_good (inner 14 s)); [apply inner_bytes; exact Hb| |exact Re|exact Ke].
        pose proof (inner_length 14 s). lia.
    - rewrite Forall_forall in *. intros s Hs. auto. }
  pose proof (fold_head eit_add head (fun a b X => X) ts eit_default Ne ltac:(eapply Forall_impl; [|exact H]; intros ? [X _]; exact X)) as (V1 & V2 & V3 & V4 & V5).
  assert (G : good (fold_left eit_add ts eit_default)).
  { apply fold_good; [|constructor|eapply Forall_impl; [|exact H]; intros ? [_ X]; exact X].
    intros a b A1 B1. unfold good in *. cbn [eit_add eit_items]. apply Forall_app; auto. }
  unfold pf_sendable, eit_ok, eit_fits, exact_items, loop_ok.
  repeat (split; try assumption); try lia; try (eapply Forall_impl; [|exact G]; unfold eiti_good; intros; tauto).
Qed.

(** a time offset table has one section *)
Lemma tot_collected s t : sect_ok s -> tot_reads s t -> tot_kept s -> (14 + N.to_nat (field s 68 12) <= length s)%nat -> tot_sendable t.
Proof.
  intros [Hb Hl] (ds & -> & [Tk _] & L & Rd) [Di Kd] L'.
  set (n := N.to_nat (field s 68 12)) in *. destruct (kept_loop _ _ (bytes_firstn n _ (bytes_skipn 10 s Hb)) Rd Kd) as (O & X & W).
  rewrite firstn_length in W. unfold tot_sendable, loop_ok. cbn [tot_time tot_descs].
  split; [apply time_end; [exact (field_lt s 24 16)|exact Tk|exact Di]|]. repeat split; try assumption; lia.
Qed.

(** ** the conditions on given bytes *)
Lemma loop_unique recs : forall recs' tail tail', loop_of recs ++ tail = loop_of recs' ++ tail' -> incomplete tail -> incomplete tail' -> recs' = recs.
Proof.
  unfold loop_of. induction recs as [|[t b] recs IH]; intros [|[t' b'] recs'] tail tail' E I I'; cbn [flat_map fst snd app] in E.
  - reflexivity.
  - exfalso. subst tail. unfold tlv in I. cbn [app] in I. destruct I as [I|(x & n & r & E & L)]; [cbn [length] in I; lia|].
    injection E as _ <- <-. rewrite !app_length in L. lia.
  - exfalso. subst tail'. unfold tlv in I'. cbn [app] in I'. destruct I' as [I'|(x & n & r & E & L)]; [cbn [length] in I'; lia|].
    injection E as _ <- <-. rewrite !app_length in L. lia.
  - unfold tlv in E. cbn [app] in E. injection E as Et En Er. rewrite <- !app_assoc in Er.
    destruct (P_desc3.app_inj_len b b' _ _ ltac:(lia) Er) as [Eb E']. subst t' b'. f_equal. exact (IH _ _ _ E' I I').
Qed.
Lemma loop_kept_intro recs tail : incomplete tail -> Forall (fun r => value_stays (fst r) (snd r)) recs -> loop_kept (loop_of recs ++ tail).
Proof. intros I F recs' tail' E I'. rewrite (loop_unique recs recs' tail tail' E I I'). exact F. Qed.

Lemma entry_len_app h r x : (2 <= h <= length r)%nat -> entry_len h (r ++ x) = entry_len h r.
Proof.
  intros L. unfold entry_len. f_equal. f_equal. unfold field. f_equal. rewrite unpack_app, skipn_app, firstn_app, skipn_length, unpack_length.
  replace (12 - (8 * length r - (8 * h - 12)))%nat with 0%nat by lia. rewrite firstn_O, app_nil_r. reflexivity.
Qed.
Lemma entries_unique h recs : (2 <= h)%nat -> forall recs' tail tail', concat recs ++ tail = concat recs' ++ tail' -> Forall (entry h) recs -> Forall (entry h) recs' ->
  cut_off h tail -> cut_off h tail' -> recs' = recs.
Proof.
  intros Hh. assert (No : forall r x, entry h r -> ~ cut_off h (r ++ x)).
  { intros r x [A B] [C|C]; rewrite app_length in C; [lia|]. rewrite entry_len_app in C by lia. lia. }
  induction recs as [|r recs IH]; intros [|r' recs'] tail tail' E F F' I I'; cbn [concat app] in E.
  - reflexivity.
  - exfalso. subst tail. inversion F'; subst. rewrite <- app_assoc in I. exact (No _ _ H1 I).
  - exfalso. subst tail'. inversion F; subst. rewrite <- app_assoc in I'. exact (No _ _ H1 I').
  - inversion F as [|? ? E1 F1]; inversion F' as [|? ? E1' F1']; subst. rewrite <- !app_assoc in E.
    assert (L : length r = length r').
    { destruct E1 as [A1 B1], E1' as [A2 B2]. rewrite B1, B2. rewrite <- (entry_len_app h r (concat recs ++ tail)) by lia. rewrite E. apply entry_len_app. lia. }
    destruct (P_desc3.app_inj_len r r' _ _ L E) as [<- E']. f_equal. exact (IH _ _ _ E' F1 F1' I I').
Qed.
Lemma entries_kept_intro h P recs tail : (2 <= h)%nat -> Forall (entry h) recs -> cut_off h tail -> Forall P recs -> entries_kept h P (concat recs ++ tail).
Proof. intros Hh F I Q recs' tail' E I' F'. rewrite (entries_unique h recs Hh recs' tail tail' E F F' I I'). exact Q. Qed.

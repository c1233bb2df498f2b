(** Proofs about the player of an elementary stream (M_play). *)
From Verif Require Import Prelude Layout Facts S_ts M_bytes M_ts M_pes M_play S_play P_ts P_pes W_ts.
From Verif Require P_desc.

Lemma hdr_len a b c d e f g h i : length (ts_header a b c d e f g h i) = 4%nat.
Proof. unfold ts_header. rewrite P_desc.layout_length by reflexivity. reflexivity. Qed.

Lemma own_getters m pid pusi x : piece_ok x -> pid < 8192 -> pusi < 2 ->
  let ts := es_packet pid pusi x in
  get_pid ts = Ok pid /\ is_payload ts = Ok true /\ is_pusi ts = Ok (negb (pusi =? 0)) /\
  exists o, get_payload_offset m ts = Ok o /\ slice_from ts (N.to_nat o) = Ok (e_data x).
Proof.
  intros (L & B1 & B2) P U ts.
  assert (BA : bytes (af_bytes (e_af x))).
  { destruct (e_af x) as [b|]; [|constructor]. constructor; [|exact B1]. cbn [af_bytes length] in L. lia. }
  assert (B : bytes (af_bytes (e_af x) ++ e_data x)) by (apply bytes_app; split; assumption).
  pose proof (getters_of_table 0x47 0 pusi (e_prio x) pid 0 (match e_af x with Some _ => 1 | None => 0 end) 1 (e_cc x) _ B) as G.
  cbv zeta in G. fold (es_packet pid pusi x) in G. fold ts in G.
  destruct G as (_ & _ & G3 & G4 & _ & G6 & G7 & _).
  rewrite (N.mod_small pid) in G4 by assumption. rewrite (N.mod_small pusi) in G3 by assumption.
  split; [exact G4|]. split; [exact G7|]. split; [exact G3|].
  unfold get_payload_offset. rewrite G6. cbn [bind].
  set (h := ts_header 0x47 0 pusi (e_prio x) pid 0 (match e_af x with Some _ => 1 | None => 0 end) 1 (e_cc x)) in *.
  assert (H4 : length h = 4%nat) by apply hdr_len.
  assert (T : ts = h ++ af_bytes (e_af x) ++ e_data x) by reflexivity.
  clearbody h. destruct (e_af x) as [b|].
  - change (negb (negb (1 mod 2 =? 0))) with false. cbv iota.
    cbn [af_bytes length] in L.
    assert (E : get_adaptation_size ts = Ok (N.of_nat (length b))).
    { unfold get_adaptation_size, get. rewrite T. cbn [af_bytes app].
      rewrite nth_error_app2 by lia. rewrite H4. reflexivity. }
    rewrite E. cbn [bind]. exists (5 + N.of_nat (length b)). split.
    { unfold addw. replace (5 + N.of_nat (length b) <? U8) with true by (symmetry; apply N.ltb_lt; unfold U8; lia). reflexivity. }
    unfold slice_from. rewrite T, !app_length, H4. cbn [af_bytes length].
    replace (N.to_nat (5 + N.of_nat (length b)) <=? 4 + (S (length b) + length (e_data x)))%nat with true by (symmetry; apply Nat.leb_le; lia).
    f_equal. replace (N.to_nat (5 + N.of_nat (length b))) with (length h + length (N.of_nat (length b) :: b))%nat by (cbn [length]; lia).
    rewrite app_assoc, <- app_length, skipn_app, skipn_all, Nat.sub_diag. reflexivity.
  - change (negb (negb (0 mod 2 =? 0))) with true. cbv iota. exists 4. split; [reflexivity|].
    unfold slice_from. rewrite T, !app_length, H4. cbn [af_bytes length].
    replace (N.to_nat 4 <=? 4 + (0 + length (e_data x)))%nat with true by (symmetry; apply Nat.leb_le; lia).
    f_equal. change (N.to_nat 4) with 4%nat. rewrite <- H4, skipn_app, skipn_all, Nat.sub_diag. reflexivity.
Qed.

Lemma collect_foreign m pid ts l cur : foreign pid ts -> collect m pid (ts :: l) cur = collect m pid l cur.
Proof.
  intros (L & B & F). destruct (header_getters ts L B) as (_ & _ & _ & G4 & _ & _ & G7 & _).
  cbn [collect]. rewrite G4. cbn [bind]. destruct (N.eqb_spec (field ts 11 13) pid) as [E|E]; [|reflexivity].
  cbn [negb]. rewrite G7. cbn [bind]. destruct F as [F|F]; [contradiction|]. rewrite F. reflexivity.
Qed.

Lemma collect_among m pid own l : among pid own l -> forall cur, collect m pid l cur = collect m pid own cur.
Proof.
  induction 1 as [|p own l A IH|p own l F A IH]; intros cur; [reflexivity| |rewrite collect_foreign by assumption; apply IH].
  cbn [collect]. destruct (get_pid p) as [i| |]; [|reflexivity|reflexivity]. cbn [bind].
  destruct (negb (i =? pid)); [apply IH|].
  destruct (is_payload p) as [q| |]; [|reflexivity|reflexivity]. cbn [bind].
  destruct (negb q); [apply IH|].
  destruct (get_payload_offset m p) as [o| |]; [|reflexivity|reflexivity]. cbn [bind].
  destruct (slice_from p (N.to_nat o)) as [d| |]; [|reflexivity|reflexivity]. cbn [bind].
  destruct (is_pusi p) as [u| |]; [|reflexivity|reflexivity]. cbn [bind].
  destruct u; [rewrite IH; reflexivity|apply IH].
Qed.

Lemma collect_start m pid x l cur : piece_ok x -> pid < 8192 ->
  collect m pid (es_packet pid 1 x :: l) cur = (r <- collect m pid l (Some (e_data x)) ;; Ok (match cur with Some c => c :: r | None => r end)).
Proof.
  intros X P. destruct (own_getters m pid 1 x X P eq_refl) as (G1 & G2 & G3 & o & G4 & G5).
  cbn [collect]. rewrite G1. cbn [bind]. rewrite N.eqb_refl. cbn [negb]. rewrite G2. cbn [bind negb].
  rewrite G4. cbn [bind]. rewrite G5. cbn [bind]. rewrite G3. reflexivity.
Qed.
Lemma collect_more m pid x l cur : piece_ok x -> pid < 8192 ->
  collect m pid (es_packet pid 0 x :: l) cur = collect m pid l (match cur with Some c => Some (c ++ e_data x) | None => None end).
Proof.
  intros X P. destruct (own_getters m pid 0 x X P eq_refl) as (G1 & G2 & G3 & o & G4 & G5).
  cbn [collect]. rewrite G1. cbn [bind]. rewrite N.eqb_refl. cbn [negb]. rewrite G2. cbn [bind negb].
  rewrite G4. cbn [bind]. rewrite G5. cbn [bind]. rewrite G3. reflexivity.
Qed.
Lemma collect_rest m pid xs l : Forall piece_ok xs -> pid < 8192 -> forall cur,
  collect m pid (map (es_packet pid 0) xs ++ l) cur = collect m pid l (match cur with Some c => Some (c ++ concat (map e_data xs)) | None => None end).
Proof.
  intros X P. induction X as [|x xs Hx X IH]; intros cur.
  - cbn [map app concat]. destruct cur; [rewrite app_nil_r|]; reflexivity.
  - cbn [map app]. rewrite collect_more by assumption. rewrite IH. destruct cur; [|reflexivity].
    cbn [concat]. rewrite app_assoc. reflexivity.
Qed.
Lemma collect_units m pid ls ps : Forall2 pieces_of ls ps -> pid < 8192 -> forall cur,
  collect m pid (concat (map (unit_packets pid) ls)) cur = Ok (match cur with Some c => [c] | None => [] end ++ ps).
Proof.
  intros F P. induction F as [|l p ls ps (N0 & Fl & E) F IH]; intros cur.
  - cbn [map concat collect]. rewrite app_nil_r. reflexivity.
  - destruct l as [|x r]; [congruence|]. inversion Fl; subst. cbn [map concat unit_packets app].
    rewrite collect_start by assumption. rewrite collect_rest by assumption. rewrite IH. cbn [bind].
    cbn [map concat app]. destruct cur; reflexivity.
Qed.
Lemma collect_all m pid lead ls ps l : Forall piece_ok lead -> Forall2 pieces_of ls ps -> pid < 8192 ->
  among pid (map (es_packet pid 0) lead ++ concat (map (unit_packets pid) ls)) l -> collect m pid l None = Ok ps.
Proof.
  intros L F P A. rewrite (collect_among m pid _ _ A), collect_rest by assumption. rewrite (collect_units m pid ls ps F P). reflexivity.
Qed.

(** ** opening *)
Lemma pts_len a b c d e : length (pts_bytes a b c d e) = 5%nat.
Proof. unfold pts_bytes. rewrite P_desc.layout_length by reflexivity. reflexivity. Qed.
Lemma stamps_bytes a b : bytes (stamps a b).
Proof. destruct a, b; cbn [stamps]; try (apply bytes_app; split); first [apply layout_bytes|constructor]. Qed.
Lemma rest_bytes p : pes_ok p -> bytes (pes_rest p).
Proof.
  destruct p as [id b6 pts dts f6 rest data|id data]; intros H; cbn [pes_rest].
  - destruct H as (_ & _ & _ & _ & _ & _ & H1 & H2).
    apply bytes_app; split; [apply layout_bytes|]. apply bytes_app; split; [apply stamps_bytes|]. apply bytes_app; split; assumption.
  - apply H.
Qed.
Definition pre (id len : N) : list (nat * N) := [(24%nat, 1); (8%nat, id); (16%nat, len)].
Lemma pre_len id len : length (layout (pre id len)) = 6%nat.
Proof. rewrite P_desc.layout_length by reflexivity. reflexivity. Qed.

Lemma is_prefix_ok p : (4 <= length p)%nat -> bytes p -> is_prefix p = Ok (field p 0 24 =? 1).
Proof. intros. apply is_prefix_spec; [lia|assumption]. Qed.

Definition plen (p : pes) (b : bool) : N := if b then 0 else N.of_nat (length (pes_rest p)).
Definition hd_fields (b6 fl f6 n : N) : list (nat * N) := [(2%nat, 2); (6%nat, b6); (2%nat, fl); (6%nat, f6); (8%nat, n)].
Lemma pes_bytes_bytes p b : pes_ok p -> bytes (pes_bytes p b).
Proof. intros H. apply bytes_app; split; [apply layout_bytes|apply rest_bytes; assumption]. Qed.
Lemma pes_bytes_len p b : length (pes_bytes p b) = (6 + length (pes_rest p))%nat.
Proof. change (pes_bytes p b) with (layout (pre (pes_id p) (plen p b)) ++ pes_rest p). rewrite app_length, pre_len. reflexivity. Qed.
Lemma id_lt p : pes_ok p -> pes_id p < 256.
Proof.
  destruct p; intros H; [apply H|]. destruct H as [H _]. cbn [pes_id]. unfold no_optional_header in H. cbn [In] in H. lia.
Qed.
Lemma fixed_fields p b : pes_ok p -> length_ok p b ->
  field (pes_bytes p b) 0 24 = 1 /\ field (pes_bytes p b) 24 8 = pes_id p /\ field (pes_bytes p b) 32 16 = plen p b.
Proof.
  intros H L. change (pes_bytes p b) with (layout (pre (pes_id p) (plen p b)) ++ pes_rest p).
  split; [exact (field_layout [] 24 1 [(8%nat, pes_id p); (16%nat, plen p b)] _ eq_refl)|]. split.
  - rewrite (field_layout [(24%nat, 1)] 8 (pes_id p) [(16%nat, plen p b)] _ eq_refl).
    apply N.mod_small. exact (id_lt p H).
  - rewrite (field_layout [(24%nat, 1); (8%nat, pes_id p)] 16 (plen p b) [] _ eq_refl).
    apply N.mod_small. change (2 ^ N.of_nat 16) with 65536. unfold plen. destruct L as [->|L]; [reflexivity|destruct b; [reflexivity|exact L]].
Qed.
Lemma cut p b o : (o <= length (pes_bytes p b))%nat -> (6 <= o)%nat -> length_ok p b ->
  (if plen p b =? 0 then slice_from (pes_bytes p b) o else slice (pes_bytes p b) o (N.to_nat (6 + plen p b))) = Ok (skipn o (pes_bytes p b)).
Proof.
  intros O O6 L. destruct (N.eqb_spec (plen p b) 0) as [E|E].
  - unfold slice_from. apply Nat.leb_le in O. rewrite O. reflexivity.
  - unfold plen in *. destruct b; [congruence|].
    replace (N.to_nat (6 + N.of_nat (length (pes_rest p)))) with (length (pes_bytes p false)) by (rewrite pes_bytes_len; lia).
    unfold slice. pose proof O as O'. apply Nat.leb_le in O'. rewrite O', Nat.leb_refl. cbn [andb].
    rewrite firstn_all2 by (rewrite skipn_length; lia). reflexivity.
Qed.
Lemma existsb_no id : existsb (N.eqb id) no_optional_header = true <-> In id no_optional_header.
Proof.
  rewrite existsb_exists. split.
  - intros (x & H & E). apply N.eqb_eq in E. subst. exact H.
  - intros H. exists id. split; [exact H|apply N.eqb_refl].
Qed.

Lemma open_ok m p b : pes_ok p -> length_ok p b -> open m (pes_bytes p b) = Ok (Some (holds p)).
Proof.
  intros H L. pose proof (pes_bytes_bytes p b H) as B. pose proof (pes_bytes_len p b) as LN.
  destruct (fixed_fields p b H L) as (F1 & F2 & F3).
  unfold open. rewrite is_prefix_spec by (lia || assumption). rewrite F1. cbn [bind].
  change (negb (1 =? 1)) with false. cbv iota.
  rewrite is_syntax_spec_spec by (lia || assumption). rewrite F2. cbn [bind].
  rewrite pes_get_length_spec by (lia || assumption). rewrite F3. 
  destruct p as [id b6 pts dts f6 rest data|id data].
  - destruct H as (I1 & I2 & T1 & T2 & T3 & HL & R & D). cbn [pes_id] in *.
    assert (X : existsb (N.eqb id) no_optional_header = false).
    { destruct (existsb (N.eqb id) no_optional_header) eqn:E; [|reflexivity]. apply existsb_no in E. contradiction. }
    rewrite X. cbn [negb]. cbv iota.
    set (k := N.of_nat (length (stamps pts dts) + length rest)) in *.
    set (q := pes_bytes (Timed id b6 pts dts f6 rest data) b) in *.
    set (len := plen (Timed id b6 pts dts f6 rest data) b) in *.
    set (fs := pre id len ++ hd_fields b6 (pts_dts_flags pts dts) f6 k).
    assert (Q : q = layout fs ++ stamps pts dts ++ rest ++ data).
    { unfold q, pes_bytes. cbn [pes_id pes_rest]. unfold fs. rewrite layout_app by reflexivity. rewrite <- app_assoc. reflexivity. }
    assert (H9 : length (layout fs) = 9%nat) by (rewrite P_desc.layout_length by reflexivity; reflexivity).
    assert (LQ : length q = (9 + (length (stamps pts dts) + (length rest + length data)))%nat) by (rewrite Q, !app_length, H9; reflexivity).
    assert (FK : field q 64 8 = k).
    { rewrite Q. unfold fs, pre, hd_fields. cbn [app].
      rewrite (field_layout [(24%nat, 1); (8%nat, id); (16%nat, len); (2%nat, 2); (6%nat, b6); (2%nat, pts_dts_flags pts dts); (6%nat, f6)] 8 k [] _ eq_refl).
      apply N.mod_small. change (2 ^ N.of_nat 8) with 256. unfold k. lia. }
    assert (FP : field q 56 2 = pts_dts_flags pts dts).
    { rewrite Q. unfold fs, pre, hd_fields. cbn [app].
      rewrite (field_layout [(24%nat, 1); (8%nat, id); (16%nat, len); (2%nat, 2); (6%nat, b6)] 2 (pts_dts_flags pts dts) [(6%nat, f6); (8%nat, k)] _ eq_refl).
      destruct pts, dts; reflexivity. }
    rewrite pes_payload_offset_spec by (lia || assumption). rewrite F2, X, FK. cbn [bind].
    rewrite (cut (Timed id b6 pts dts f6 rest data) b) by (fold q; try assumption; unfold k; lia).
    fold q. cbn [bind].
    assert (DD : skipn (N.to_nat (9 + k)) q = data).
    { rewrite Q. replace (N.to_nat (9 + k)) with (length (layout fs ++ stamps pts dts ++ rest)) by (rewrite !app_length, H9; unfold k; lia).
      rewrite !app_assoc, skipn_app, skipn_all, Nat.sub_diag. reflexivity. }
    rewrite DD.
    assert (P1 : flag q 56 = match pts with Some _ => true | None => false end).
    { rewrite Q. unfold flag, fs, pre, hd_fields. cbn [app].
      transitivity (negb (field (layout ([(24%nat, 1); (8%nat, id); (16%nat, len); (2%nat, 2); (6%nat, b6)] ++ (1%nat, pts_dts_flags pts dts / 2) ::
        [(1%nat, pts_dts_flags pts dts); (6%nat, f6); (8%nat, k)]) ++ stamps pts dts ++ rest ++ data) 56 1 =? 0)).
      - destruct pts, dts; reflexivity.
      - rewrite (field_layout [(24%nat, 1); (8%nat, id); (16%nat, len); (2%nat, 2); (6%nat, b6)] 1 (pts_dts_flags pts dts / 2) [(1%nat, pts_dts_flags pts dts); (6%nat, f6); (8%nat, k)] _ eq_refl).
        destruct pts, dts; reflexivity. }
    assert (P2 : flag q 57 = match dts with Some _ => true | None => false end).
    { rewrite Q. unfold flag, fs, pre, hd_fields. cbn [app].
      transitivity (negb (field (layout ([(24%nat, 1); (8%nat, id); (16%nat, len); (2%nat, 2); (6%nat, b6); (1%nat, pts_dts_flags pts dts / 2)] ++
        (1%nat, pts_dts_flags pts dts) :: [(6%nat, f6); (8%nat, k)]) ++ stamps pts dts ++ rest ++ data) 57 1 =? 0)).
      - destruct pts, dts; reflexivity.
      - rewrite (field_layout [(24%nat, 1); (8%nat, id); (16%nat, len); (2%nat, 2); (6%nat, b6); (1%nat, pts_dts_flags pts dts / 2)] 1 (pts_dts_flags pts dts) [(6%nat, f6); (8%nat, k)] _ eq_refl).
        destruct pts, dts; try reflexivity. specialize (T3 eq_refl). discriminate. }
    rewrite is_pts_spec by lia. rewrite P1. cbn [bind].
    rewrite is_dts_spec by lia. rewrite P2. cbn [bind holds].
    destruct pts as [pt|].
    + assert (G1 : get_pts q = Ok pt).
      { rewrite Q. destruct dts as [d|]; cbn [stamps]; [rewrite <- app_assoc|]; (apply get_pts_layout; [exact H9|apply layout_bytes| |exact T1]).
        - apply bytes_app; split; [apply layout_bytes|apply bytes_app; split; assumption].
        - apply bytes_app; split; assumption. }
      rewrite G1. cbn [bind]. destruct dts as [d|]; [|reflexivity].
      assert (G2 : get_dts q = Ok d).
      { rewrite Q. cbn [stamps]. rewrite <- app_assoc, app_assoc. apply get_dts_layout; [rewrite app_length, H9, pts_len; reflexivity| | |exact T2].
        - apply bytes_app; split; apply layout_bytes.
        - apply bytes_app; split; assumption. }
      rewrite G2. reflexivity.
    + rewrite (T3 eq_refl). reflexivity.
  - destruct H as (I & D). cbn [pes_id pes_rest] in *. apply existsb_no in I.
    set (q := pes_bytes (Plain id data) b) in *.
    unfold pes_get_payload_offset. rewrite is_syntax_spec_spec by (lia || assumption). rewrite F2, I. cbn [bind negb]. cbv iota. cbn [bind].
    rewrite (cut (Plain id data) b) by (fold q; try assumption; lia). fold q. cbn [bind holds].
    assert (DD : skipn (N.to_nat 6) q = data).
    { change (N.to_nat 6) with 6%nat. change q with (layout (pre id (plen (Plain id data) b)) ++ data).
      rewrite <- (pre_len id (plen (Plain id data) b)), skipn_app, skipn_all, Nat.sub_diag. reflexivity. }
    rewrite DD. reflexivity.
Qed.

Lemma play_all m pid lead ls ps l : Forall piece_ok lead -> Forall2 pieces_of ls (map (fun x => pes_bytes (fst x) (snd x)) ps) -> pid < 8192 ->
  Forall (fun x => pes_ok (fst x) /\ length_ok (fst x) (snd x)) ps ->
  among pid (map (es_packet pid 0) lead ++ concat (map (unit_packets pid) ls)) l ->
  play m pid l = Ok (map (fun x => Some (holds (fst x))) ps).
Proof.
  intros L F P O A. unfold play. rewrite (collect_all m pid lead ls _ l L F P A). cbn [bind]. clear A F.
  induction O as [|x ps (O1 & O2) O IH]; [reflexivity|]. cbn [map open_all]. rewrite open_ok by assumption. cbn [bind].
  rewrite IH. reflexivity.
Qed.

(** ** elapsed time *)
Definition wraps_over (t u : N) : N := if t / 2 ^ 33 =? u / 2 ^ 33 then 0 else 1.
Fixpoint wraps (t : N) (l : list N) : N := match l with [] => 0 | u :: l' => wraps_over t u + wraps u l' end.
Lemma elapsed_all m l : forall t, onward t l -> exists d, elapsed m (t mod 2 ^ 33) (map (fun u => u mod 2 ^ 33) l) = Ok d /\ d + wraps t l = last l t - t.
Proof.
  induction l as [|u l IH]; intros t O.
  - exists 0. cbn [map elapsed wraps last]. split; [reflexivity|lia].
  - destruct O as (O1 & O2 & O3). destruct (IH u O3) as (r & R & E).
    assert (Bt : t mod 2 ^ 33 < 2 ^ 33) by (apply N.mod_lt; discriminate).
    assert (Bu : u mod 2 ^ 33 < 2 ^ 33) by (apply N.mod_lt; discriminate).
    assert (PM : PTS_MAX = 2 ^ 33 - 1) by reflexivity.
    destruct (pts_delta_spec m (t mod 2 ^ 33) (u mod 2 ^ 33)) as (d & D & D1 & D2 & D3); [lia|lia|].
    exists (d + r). split.
    + cbn [map elapsed]. rewrite D. cbn [bind]. rewrite R. reflexivity.
    + assert (W : d + wraps_over t u = u - t).
      { unfold wraps_over. pose proof (N.div_mod t (2 ^ 33) ltac:(discriminate)). pose proof (N.div_mod u (2 ^ 33) ltac:(discriminate)).
        change (2 ^ 33) with 8589934592 in *.
        destruct (N.eqb_spec (t / 8589934592) (u / 8589934592)) as [Q|Q].
        - rewrite <- Q in *. rewrite D2 by lia. lia.
        - assert (u / 8589934592 = t / 8589934592 + 1) by dlia.
          assert (d + 1 = u mod 8589934592 + 8589934592 - t mod 8589934592) by (apply D3; lia). lia. }
      assert (LL : forall (x : N) k y, last (y :: k) x = last k y).
      { clear. intros x k. revert x. induction k as [|z k IHk]; intros x y; [reflexivity|]. cbn [last] in *. destruct k; [reflexivity|apply (IHk x y)]. }
      rewrite LL. cbn [wraps].
      assert (u <= last l u).
      { clear - O3. revert u O3. induction l as [|v l IH]; intros u O; [cbn; lia|]. destruct O as (A & B & C).
        assert (LL : forall (x : N) k y, last (y :: k) x = last k y).
        { clear. intros x k. revert x. induction k as [|z k IHk]; intros x y; [reflexivity|]. cbn [last] in *. destruct k; [reflexivity|apply (IHk x y)]. }
        rewrite LL. specialize (IH v C). lia. }
      lia.
Qed.

(** ** time stamps read from the first transport packet *)
Lemma get_app_lt (a b : list N) i : (i < length a)%nat -> get (a ++ b) i = get a i.
Proof. intros H. unfold get. rewrite nth_error_app1 by assumption. reflexivity. Qed.
Lemma get_pts_app a b : (14 <= length a)%nat -> get_pts (a ++ b) = get_pts a.
Proof. intros H. unfold get_pts. rewrite !get_app_lt by lia. reflexivity. Qed.
Lemma get_dts_app a b : (19 <= length a)%nat -> get_dts (a ++ b) = get_dts a.
Proof. intros H. unfold get_dts. rewrite !get_app_lt by lia. reflexivity. Qed.
Lemma flags_app a b : (8 <= length a)%nat -> is_prefix (a ++ b) = is_prefix a /\ is_pts (a ++ b) = is_pts a /\ is_dts (a ++ b) = is_dts a.
Proof. intros H. unfold is_prefix, is_pts, is_dts. rewrite !get_app_lt by lia. repeat split. Qed.

Lemma open_some m p x y d : open m p = Ok (Some (x, y, d)) -> is_syntax_spec p = Ok true ->
  is_prefix p = Ok true /\ is_pts p = Ok (match x with Some _ => true | None => false end) /\ is_dts p = Ok (match y with Some _ => true | None => false end) /\
  (forall v, x = Some v -> get_pts p = Ok v) /\ (forall v, y = Some v -> get_dts p = Ok v).
Proof.
  unfold open. intros H S. rewrite S in H.
  destruct (is_prefix p) as [[]| |]; try discriminate. cbn [bind negb] in H.
  destruct (pes_get_payload_offset m p) as [o| |]; try discriminate. cbn [bind] in H.
  destruct (pes_get_length m p) as [n| |]; try discriminate. cbn [bind] in H.
  destruct (if n =? 0 then _ else _) as [e| |]; try discriminate. cbn [bind] in H.
  destruct (is_pts p) as [[]| |]; try discriminate; cbn [bind] in H;
  [destruct (get_pts p) as [v| |]; try discriminate; cbn [bind] in H|];
  (destruct (is_dts p) as [[]| |]; try discriminate; cbn [bind] in H;
   [destruct (get_dts p) as [w| |]; try discriminate; cbn [bind] in H|]); inversion H; subst;
  repeat split; intros u U; inversion U; reflexivity.
Qed.
Lemma first_packet id b6 pts dts f6 rest data b x l :
  let p := Timed id b6 pts dts f6 rest data in
  pes_ok p -> length_ok p b -> pieces_of (x :: l) (pes_bytes p b) -> (9 + length (stamps pts dts) <= length (e_data x))%nat ->
  is_prefix (e_data x) = Ok true /\ is_pts (e_data x) = Ok (match pts with Some _ => true | None => false end) /\
  is_dts (e_data x) = Ok (match dts with Some _ => true | None => false end) /\
  (forall v, pts = Some v -> get_pts (e_data x) = Ok v) /\ (forall v, dts = Some v -> get_dts (e_data x) = Ok v).
Proof.
  intros p O L (_ & _ & E) H. cbn [map concat] in E.
  pose proof (open_ok Debug p b O L) as Q. rewrite <- E in Q. cbn [holds] in Q. unfold p in Q. cbn [holds] in Q.
  assert (S : is_syntax_spec (e_data x ++ concat (map e_data l)) = Ok true).
  { rewrite E. rewrite is_syntax_spec_spec; [|rewrite pes_bytes_len; lia|apply pes_bytes_bytes; assumption].
    destruct (fixed_fields p b O L) as (_ & F & _). rewrite F. cbn [pes_id p].
    destruct (existsb (N.eqb id) no_optional_header) eqn:X; [|reflexivity]. apply existsb_no in X. destruct O as (_ & I & _). contradiction. }
  destruct (open_some _ _ _ _ _ Q S) as (Q1 & Q2 & Q3 & Q4 & Q5).
  destruct (flags_app (e_data x) (concat (map e_data l))) as (A1 & A2 & A3); [lia|].
  rewrite A1 in Q1. rewrite A2 in Q2. rewrite A3 in Q3. split; [exact Q1|]. split; [exact Q2|]. split; [exact Q3|]. split.
  - intros v V. rewrite <- (Q4 v V). symmetry. apply get_pts_app. subst pts. cbn [stamps] in H. destruct dts; rewrite ?app_length, ?pts_len in H; lia.
  - intros v V. rewrite <- (Q5 v V). symmetry. apply get_dts_app. subst dts. destruct pts as [pt|].
    + cbn [stamps] in H. rewrite app_length, !pts_len in H. lia.
    + destruct O as (_ & _ & _ & _ & T & _). specialize (T eq_refl). discriminate.
Qed.

(** ** what stops the player *)
Definition stops (m : mode) (pid : N) (ts : list N) : bool :=
  (field ts 11 13 =? pid) && flag ts 27 && flag ts 26 && (184 <=? field ts 32 8) &&
  (match m with Debug => true | Release => field ts 32 8 <=? 250 end).
Lemma field_le ts o w : field ts o w < 2 ^ N.of_nat w.
Proof.
  unfold field. eapply N.lt_le_trans; [apply N_of_bits_lt|]. apply N.pow_le_mono_r; [discriminate|]. rewrite firstn_length. lia.
Qed.
Lemma collect_stops m pid l : Forall (fun ts => length ts = 188%nat /\ bytes ts) l -> forall cur,
  (existsb (stops m pid) l = true -> collect m pid l cur = Panic) /\ (existsb (stops m pid) l = false -> exists r, collect m pid l cur = Ok r).
Proof.
  induction 1 as [|ts l (L & B) F IH]; intros cur; [split; [discriminate|intros _; eexists; reflexivity]|].
  destruct (header_getters ts ltac:(lia) B) as (_ & _ & G3 & G4 & _ & _ & G7 & _).
  pose proof (payload_offset_spec m ts ltac:(lia) B) as G8.
  cbn [existsb collect]. rewrite G4. cbn [bind]. unfold stops at 1 3.
  destruct (field ts 11 13 =? pid); cbn [negb andb orb]; [|apply IH].
  rewrite G7. cbn [bind]. destruct (flag ts 27); cbn [negb andb orb]; [|apply IH].
  rewrite G8, G3. pose proof (field_le ts 32 8) as FL. change (2 ^ N.of_nat 8) with 256 in FL.
  assert (OK : forall o, (o <= 188)%nat -> slice_from ts o = Ok (skipn o ts)).
  { intros o O. unfold slice_from. rewrite L. apply Nat.leb_le in O. rewrite O. reflexivity. }
  assert (STOP : forall o, (188 < o)%nat -> slice_from ts o = Panic).
  { intros o O. unfold slice_from. rewrite L. apply Nat.leb_gt in O. rewrite O. reflexivity. }
  assert (GO : forall d, (existsb (stops m pid) l = true ->
      (if flag ts 9 then r <- collect m pid l (Some d) ;; Ok (match cur with Some c => c :: r | None => r end)
       else collect m pid l (match cur with Some c => Some (c ++ d) | None => None end)) = Panic) /\
    (existsb (stops m pid) l = false -> exists r,
      (if flag ts 9 then r <- collect m pid l (Some d) ;; Ok (match cur with Some c => c :: r | None => r end)
       else collect m pid l (match cur with Some c => Some (c ++ d) | None => None end)) = Ok r)).
  { intros d. destruct (flag ts 9); [|apply IH]. destruct (IH (Some d)) as [I1 I2]. split.
    - intros H. rewrite (I1 H). reflexivity.
    - intros H. destruct (I2 H) as [r R]. rewrite R. eexists. reflexivity. }
  destruct (flag ts 26); cbn [andb orb].
  - destruct (N.leb_spec (field ts 32 8) 250) as [H250|H250].
    + cbn [bind]. destruct (N.leb_spec 184 (field ts 32 8)) as [H184|H184].
      * replace ((true && match m with Debug => true | Release => true end)%bool) with true by (destruct m; reflexivity). cbn [orb].
        split; [intros _|discriminate]. rewrite STOP by lia. reflexivity.
      * cbn [andb orb]. rewrite OK by lia. cbn [bind]. apply GO.
    + assert (H184 : (184 <=? field ts 32 8) = true) by (apply N.leb_le; lia). rewrite H184. destruct m; cbn [andb orb bind].
      * split; [reflexivity|discriminate].
      * rewrite OK by lia. cbn [bind]. apply GO.
  - cbn [bind]. rewrite OK by (cbn; lia). cbn [bind]. apply GO.
Qed.

Definition unopenable (p : list N) : bool :=
  let id := field p 24 8 in let n := field p 32 16 in
  let o := if existsb (N.eqb id) no_optional_header then 6 else 9 + field p 64 8 in
  let len := N.of_nat (length p) in
  (field p 0 24 =? 1) && (if n =? 0 then len <? o else (6 + n <? o) || (len <? 6 + n)).
Lemma open_stops m p : (19 <= length p)%nat -> bytes p ->
  (unopenable p = true -> open m p = Panic) /\ (unopenable p = false -> exists r, open m p = Ok r).
Proof.
  intros L B. destruct (pes_accessors m p ltac:(lia) B) as (A1 & A2 & A3 & A4 & A5 & A6).
  unfold open, unopenable. rewrite A1. cbn [bind]. destruct (field p 0 24 =? 1); cbn [negb andb]; [|split; [discriminate|eexists; reflexivity]].
  rewrite A2, A6, A3, A4, A5. cbn [bind].
  set (o := if existsb (N.eqb (field p 24 8)) no_optional_header then 6 else 9 + field p 64 8).
  set (s := existsb (N.eqb (field p 24 8)) no_optional_header).
  set (n := field p 32 16).
  assert (C : (if n =? 0 then slice_from p (N.to_nat o) else slice p (N.to_nat o) (N.to_nat (6 + n))) =
    if (if n =? 0 then N.of_nat (length p) <? o else (6 + n <? o) || (N.of_nat (length p) <? 6 + n)) then Panic
    else Ok (if n =? 0 then skipn (N.to_nat o) p else firstn (N.to_nat (6 + n) - N.to_nat o) (skipn (N.to_nat o) p))).
  { destruct (n =? 0).
    - unfold slice_from. destruct (N.ltb_spec (N.of_nat (length p)) o) as [H|H].
      + replace (N.to_nat o <=? length p)%nat with false by (symmetry; apply Nat.leb_gt; lia). reflexivity.
      + replace (N.to_nat o <=? length p)%nat with true by (symmetry; apply Nat.leb_le; lia). reflexivity.
    - unfold slice. destruct (N.ltb_spec (6 + n) o) as [H|H]; cbn [orb].
      + replace (N.to_nat o <=? N.to_nat (6 + n))%nat with false by (symmetry; apply Nat.leb_gt; lia). reflexivity.
      + replace (N.to_nat o <=? N.to_nat (6 + n))%nat with true by (symmetry; apply Nat.leb_le; lia). cbn [andb].
        destruct (N.ltb_spec (N.of_nat (length p)) (6 + n)) as [H2|H2].
        * replace (N.to_nat (6 + n) <=? length p)%nat with false by (symmetry; apply Nat.leb_gt; lia). reflexivity.
        * replace (N.to_nat (6 + n) <=? length p)%nat with true by (symmetry; apply Nat.leb_le; lia). reflexivity. }
  rewrite C. clear C. set (bad := if n =? 0 then N.of_nat (length p) <? o else _). destruct bad; cbn [bind]; [split; [reflexivity|discriminate]|].
  split; [discriminate|intros _]. destruct s; cbn [negb]; [eexists; reflexivity|].
  rewrite (get_pts_spec p) by (lia || assumption). rewrite (get_dts_spec p) by (lia || assumption).
  destruct (flag p 56), (flag p 57); cbn [bind]; eexists; reflexivity.
Qed.

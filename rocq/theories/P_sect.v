(** Checking, comparing and finishing sections; reassembly of packetised sections. *)
From Verif Require Import Prelude Layout Facts Facts2 M_bytes M_ts M_crc M_psi M_drive S_ts S_crc S_psi
  P_bytes P_ts P_crc W_ts P_psi P_mux P_mux2.

(** ** CRC accessors *)
Lemma get_u32_at_spec l i : bytes l -> (i + 4 <= length l)%nat ->
  get_u32_at l i = Ok (be (firstn 4 (skipn i l))).
Proof.
  intros Hb Hl. unfold get_u32_at, slice_from.
  destruct (Nat.leb_spec i (length l)); [|lia]. cbn [bind].
  rewrite <- (firstn_skipn 4 (skipn i l)) at 1.
  apply get_u32_app; [apply bytes_firstn, bytes_skipn, Hb|].
  rewrite firstn_length, skipn_length. lia.
Qed.
Lemma get_u32_at_panic l i : (length l < i + 4)%nat -> get_u32_at l i = Panic.
Proof.
  intros Hl. unfold get_u32_at, slice_from.
  destruct (Nat.leb_spec i (length l)); [|reflexivity]. cbn [bind].
  pose proof (skipn_length i l) as H1. unfold get_u32, get.
  destruct (skipn i l) as [|a [|b [|c [|d t]]]]; cbn [length] in H1; try lia; reflexivity.
Qed.

Definition stored_crc (p : psi) : list N := firstn 4 (skipn (p_size p - 4) (p_buffer p)).

Lemma psi_get_crc32_spec p : bytes (p_buffer p) ->
  psi_get_crc32 p = if ((4 <=? p_size p) && (p_size p <=? length (p_buffer p)))%nat
                    then Ok (be (stored_crc p)) else Panic.
Proof.
  intros Hb. unfold psi_get_crc32, sub_idx, stored_crc.
  destruct (Nat.leb_spec 4 (p_size p)); cbn [bind andb]; [|reflexivity].
  destruct (Nat.leb_spec (p_size p) (length (p_buffer p))).
  - apply get_u32_at_spec; [assumption|lia].
  - apply get_u32_at_panic; lia.
Qed.

Lemma psi_check_spec p : bytes (p_buffer p) ->
  psi_check p = Ok ((7 <? p_size p)%nat && (p_size p <=? length (p_buffer p))%nat &&
                    (crc_spec (firstn (p_size p) (p_buffer p)) =? 0)).
Proof.
  intros Hb. unfold psi_check.
  destruct (Nat.ltb_spec 7 (p_size p)); cbn [negb andb]; [|reflexivity].
  destruct (Nat.leb_spec (p_size p) (length (p_buffer p))); cbn [negb andb]; [|reflexivity].
  unfold psi_check_crc32. rewrite psi_get_crc32_spec by assumption.
  destruct (Nat.leb_spec 4 (p_size p)), (Nat.leb_spec (p_size p) (length (p_buffer p))); try lia.
  cbn [andb bind]. unfold psi_calc_crc32, sub_idx.
  destruct (Nat.leb_spec 4 (p_size p)); [|lia]. cbn [bind]. rewrite slice_0 by lia. cbn [bind].
  rewrite crc32b_spec by (apply bytes_firstn; assumption). cbn [bind]. f_equal.
  set (n := (p_size p - 4)%nat). set (h := firstn n (p_buffer p)).
  assert (E : firstn (p_size p) (p_buffer p) = h ++ stored_crc p).
  { unfold h, stored_crc. fold n. replace (p_size p) with (n + 4)%nat by lia.
    rewrite <- (firstn_skipn n (p_buffer p)) at 1. rewrite firstn_app, firstn_firstn, firstn_length.
    rewrite Nat.min_r, Nat.min_l by lia. replace (n + 4 - n)%nat with 4%nat by lia. reflexivity. }
  rewrite E.
  assert (Hs : crc_spec (h ++ stored_crc p) = 0 <-> be (stored_crc p) = crc_spec h).
  { apply crc_suffix; [apply bytes_firstn; assumption|apply bytes_firstn, bytes_skipn; assumption|].
    unfold stored_crc. rewrite firstn_length, skipn_length. lia. }
  destruct (N.eqb_spec (be (stored_crc p)) (crc_spec h)), (N.eqb_spec (crc_spec (h ++ stored_crc p)) 0); tauto.
Qed.

Lemma psi_check_true p : bytes (p_buffer p) ->
  psi_check p = Ok true <-> (8 <= p_size p <= length (p_buffer p))%nat /\ crc_spec (firstn (p_size p) (p_buffer p)) = 0.
Proof.
  intros Hb. rewrite psi_check_spec by assumption. split.
  - intros E. injection E as E. apply andb_true_iff in E as [E E3]. apply andb_true_iff in E as [E1 E2].
    apply Nat.ltb_lt in E1. apply Nat.leb_le in E2. apply N.eqb_eq in E3. auto with arith.
  - intros [H1 H2]. f_equal. rewrite H2.
    destruct (Nat.ltb_spec 7 (p_size p)), (Nat.leb_spec (p_size p) (length (p_buffer p))); try lia; reflexivity.
Qed.

Lemma psi_eq_spec a b : bytes (p_buffer a) -> bytes (p_buffer b) ->
  psi_eq a b =
    if (p_size a =? p_size b)%nat then
      if ((4 <=? p_size a) && (p_size a <=? length (p_buffer a)) && (p_size b <=? length (p_buffer b)))%nat
      then Ok (be (stored_crc a) =? be (stored_crc b)) else Panic
    else Ok false.
Proof.
  intros Ha Hb. unfold psi_eq.
  destruct (Nat.eqb_spec (p_size a) (p_size b)) as [E|E]; cbn [negb]; [|reflexivity].
  rewrite !psi_get_crc32_spec by assumption. rewrite <- E.
  destruct (4 <=? p_size a)%nat, (p_size a <=? length (p_buffer a))%nat, (p_size a <=? length (p_buffer b))%nat; reflexivity.
Qed.

Lemma be_inj a b : bytes a -> bytes b -> length a = length b -> be a = be b -> a = b.
Proof. intros Ha Hb Hl E. rewrite <- (to_be_be a Ha), <- (to_be_be b Hb), Hl, E. reflexivity. Qed.

(** ** finalize *)
Lemma set_u32_at_end l s v : length s = 4%nat -> set_u32_at (l ++ s) (length l) v = Ok (l ++ to_be 4 v).
Proof.
  intros Hs. unfold set_u32_at. rewrite on_from_app.
  rewrite <- (app_nil_r s). rewrite set_u32_app by assumption. cbn [bind]. rewrite app_nil_r. reflexivity.
Qed.

Lemma finalize_sized p body s : p_buffer p = body ++ s -> length s = 4%nat -> bytes body ->
  p_size p = (length body + 4)%nat ->
  psi_finalize p = Ok (with_buffer p (body ++ to_be 4 (crc_spec body))).
Proof.
  intros Eb Hs Hb Hz. unfold psi_finalize.
  destruct (Nat.eqb_spec (p_size p) 0); [lia|]. cbn [bind].
  unfold sub_idx. rewrite Hz. destruct (Nat.leb_spec 4 (length body + 4)); [|lia]. cbn [bind].
  replace (length body + 4 - 4)%nat with (length body) by lia. rewrite Eb.
  rewrite slice_0 by (rewrite app_length; lia). cbn [bind].
  rewrite firstn_app, Nat.sub_diag, firstn_all. cbn [firstn]. rewrite app_nil_r.
  rewrite crc32b_spec by assumption. cbn [bind].
  rewrite set_u32_at_end by assumption. reflexivity.
Qed.

Definition fin_body (b : list N) : list N :=
  firstn 1 b ++ layout [(4%nat, field b 8 4); (12%nat, N.of_nat (length b + 1))] ++ skipn 3 b.

Lemma layout_4_12 x y : x < 16 -> y < 4096 ->
  layout [(4%nat, x); (12%nat, y)] = [x * 16 + y / 256; y mod 256].
Proof.
  intros Hx Hy. rewrite <- (pack_unpack [x * 16 + y / 256; y mod 256]).
  2:{ repeat constructor; dlia. }
  unfold layout. f_equal. unfold field_bits, unpack. cbn [flat_map]. rewrite !app_nil_r. cbn [fst snd].
  assert (G : forall w a b, b < 2 ^ N.of_nat w -> forall k, bits_of (k + w) (a * 2 ^ N.of_nat w + b) = bits_of k a ++ bits_of w b).
  { intros w a b Hb k.
    assert (Hn : N_of_bits (bits_of (k + w) (a * 2 ^ N.of_nat w + b)) = N_of_bits (bits_of k a ++ bits_of w b)).
    { rewrite N_of_bits_app, !N_of_bits_bits_of, bits_of_length.
      rewrite (N.mod_small b) by assumption. rewrite Nat2N.inj_add, N.pow_add_r.
      pose proof (N.pow_nonzero 2 (N.of_nat w) ltac:(lia)). pose proof (N.pow_nonzero 2 (N.of_nat k) ltac:(lia)).
      set (W := 2 ^ N.of_nat w) in *. set (K := 2 ^ N.of_nat k) in *.
      symmetry. apply (N.mod_unique _ _ (a / K)).
      - pose proof (N.mod_lt a K ltac:(assumption)). nia.
      - pose proof (N.div_mod a K ltac:(assumption)). nia. }
    rewrite <- (bits_of_N_of_bits (bits_of (k + w) _)), <- (bits_of_N_of_bits (bits_of k a ++ bits_of w b)).
    rewrite Hn. rewrite app_length, !bits_of_length. reflexivity. }
  pose proof (G 4%nat x (y / 256) ltac:(change (2 ^ N.of_nat 4) with 16; dlia) 4%nat) as G1.
  change (2 ^ N.of_nat 4) with 16 in G1. change (4 + 4)%nat with 8%nat in G1. rewrite G1.
  pose proof (G 8%nat (y / 256) (y mod 256) ltac:(change (2 ^ N.of_nat 8) with 256; dlia) 4%nat) as G2.
  change (2 ^ N.of_nat 8) with 256 in G2. change (4 + 8)%nat with 12%nat in G2.
  rewrite <- app_assoc, <- G2. do 2 f_equal. dlia.
Qed.

Lemma field_8_4 b0 b1 t : b1 < 256 -> field (b0 :: b1 :: t) 8 4 = b1 / 16.
Proof.
  intros H. change (b0 :: b1 :: t) with ([b0; b1] ++ t). rewrite field_prefix by (cbn; lia).
  unfold field. cbn [unpack flat_map app]. rewrite app_nil_r.
  change (firstn 4 (skipn 8 (bits_of 8 b0 ++ bits_of 8 b1))) with (firstn 4 (bits_of 8 b1)).
  assert (G : forall k, k < 256 -> N_of_bits (firstn 4 (bits_of 8 k)) = k / 16).
  { intros k Hk. apply N.eqb_eq. revert k Hk. apply (sweep 256). vm_compute. reflexivity. }
  apply G, H.
Qed.

Lemma finalize_new p : p_size p = 0%nat -> bytes (p_buffer p) ->
  (3 <= length (p_buffer p) <= N.to_nat 4094)%nat ->
  psi_finalize p = Ok (mkPsi (finished (p_buffer p)) (length (p_buffer p) + 4) (p_pid p) (p_cc p)).
Proof.
  intros Hz Hb Hl. destruct p as [b sz pid cc]. cbn [p_size p_buffer p_pid p_cc] in *. subst sz.
  destruct b as [|b0 [|b1 [|b2 t]]]; try (cbn [length] in Hl; lia).
  set (b := b0 :: b1 :: b2 :: t) in *.
  assert (Hb' := Hb). unfold b in Hb'.
  apply bytes_cons in Hb' as [H0 Hb']. apply bytes_cons in Hb' as [H1 Hb']. apply bytes_cons in Hb' as [H2 Ht].
  assert (Ebody : fin_body b = b0 :: (b1 / 16 * 16 + N.of_nat (length b + 1) / 256)
                        :: N.of_nat (length b + 1) mod 256 :: t).
  { unfold fin_body. change (firstn 1 b) with [b0]. change (skipn 3 b) with t.
    unfold b at 1. rewrite field_8_4 by assumption. rewrite layout_4_12 by dlia. reflexivity. }
  assert (Hbb : bytes (fin_body b)).
  { rewrite Ebody. repeat (apply bytes_cons; split); try assumption; dlia. }
  assert (Hlb : length (fin_body b) = length b) by (rewrite Ebody; reflexivity).
  pose (q := mkPsi (fin_body b ++ repeat 0 4) (length b + 4) pid cc).
  transitivity (psi_finalize q).
  - unfold psi_finalize. cbn [p_size p_buffer p_pid p_cc]. change (0 =? 0)%nat with true. cbn match.
    rewrite resize_grow by lia. replace (length b + 4 - length b)%nat with 4%nat by lia.
    change (get (b ++ repeat 0 4) 1) with (Ok b1). cbn [bind].
    unfold sub_idx at 1. destruct (Nat.leb_spec 3 (length b + 4)); [|lia]. cbn [bind].
    assert (Ex : N.lor (shlw U16 (N.land b1 240) 8) (cast U16 (N.of_nat (length b + 4 - 3))) =
                 256 * (b1 / 16 * 16 + N.of_nat (length b + 1) / 256) + N.of_nat (length b + 1) mod 256).
    { replace (length b + 4 - 3)%nat with (length b + 1)%nat by lia.
      assert (Hy : N.of_nat (length b + 1) < 4096) by lia. set (y := N.of_nat (length b + 1)) in *. clearbody y.
      assert (El : N.land b1 240 = b1 / 16 * 16).
      { clear - H1. apply N.eqb_eq. revert b1 H1. apply (sweep 256). vm_compute. reflexivity. }
      rewrite El. rewrite shlw_small by (unfold U16; change (2 ^ 8) with 256; dlia).
      unfold cast, U16. rewrite N.mod_small by lia.
      rewrite (lor_add 12) by (change (2 ^ 12) with 4096; change (2 ^ 8) with 256; dlia).
      change (2 ^ 8) with 256. dlia. }
    rewrite Ex. set (x := 256 * _ + _).
    assert (Es : set_u16_at (b ++ repeat 0 4) 1 x = Ok (fin_body b ++ repeat 0 4)).
    { unfold set_u16_at.
      change (b ++ repeat 0 4) with ([b0] ++ ([b1; b2] ++ (t ++ repeat 0 4))).
      change 1%nat with (length [b0]) at 1. rewrite on_from_app.
      rewrite set_u16_app by reflexivity. cbn [bind]. rewrite Ebody. cbn [app to_be]. f_equal. f_equal.
      unfold x. change (256 ^ N.of_nat 1) with 256. change (256 ^ N.of_nat 0) with 1.
      f_equal; [|f_equal]; dlia. }
    rewrite Es. cbn [bind].
    unfold q. cbn [p_size p_buffer]. destruct (Nat.eqb_spec (length b + 4) 0); [lia|]. cbn [bind p_size p_buffer]. reflexivity.
  - rewrite (finalize_sized q (fin_body b) (repeat 0 4)); try assumption; try reflexivity.
Qed.

Lemma finished_length b : (3 <= length b)%nat -> length (finished b) = (length b + 4)%nat.
Proof.
  intros H. unfold finished. rewrite !app_length, to_be_length, firstn_length, skipn_length.
  change (length (layout [(4%nat, field b 8 4); (12%nat, N.of_nat (length b + 1))])) with 2%nat. lia.
Qed.

Lemma finished_bytes b : bytes b -> bytes (finished b).
Proof.
  intros H. unfold finished. rewrite !bytes_app.
  repeat split; try apply bytes_firstn; try apply bytes_skipn; try apply layout_bytes; try apply to_be_bytes; assumption.
Qed.

Lemma finished_crc b : bytes b -> crc_spec (finished b) = 0.
Proof.
  intros H. unfold finished. apply crc_suffix.
  - rewrite !bytes_app. repeat split; [apply bytes_firstn|apply layout_bytes|apply bytes_skipn]; assumption.
  - apply to_be_bytes.
  - apply to_be_length.
  - rewrite be_to_be. apply N.mod_small. exact (crc_spec_lt _).
Qed.

Lemma finished_field b : (3 <= length b <= N.to_nat 4094)%nat ->
  field (finished b) 12 12 = N.of_nat (length b + 1) /\ field (finished b) 8 4 = field b 8 4.
Proof.
  intros H. unfold finished.
  set (h := firstn 1 b). assert (Hh : length h = 1%nat) by (unfold h; rewrite firstn_length; lia).
  rewrite <- !app_assoc.
  split.
  - refine (eq_trans (field_app_n 1 h _ 4 12 Hh) _).
    match goal with |- field (_ ++ ?r) _ _ = _ => etransitivity; [exact (field_layout [(4%nat, field b 8 4)] 12 (N.of_nat (length b + 1)) [] r eq_refl)|] end.
    apply N.mod_small. change (2 ^ N.of_nat 12) with 4096. lia.
  - refine (eq_trans (field_app_n 1 h _ 0 4 Hh) _).
    match goal with |- field (_ ++ ?r) _ _ = _ => etransitivity; [exact (field_layout [] 4 (field b 8 4) [(12%nat, N.of_nat (length b + 1))] r eq_refl)|] end.
    apply N.mod_small, field_lt.
Qed.

Lemma finished_ok b : bytes b -> (4 <= length b <= N.to_nat 4094)%nat -> section_ok (finished b).
Proof.
  intros Hb Hl. assert (Hl3 : (3 <= length b <= N.to_nat 4094)%nat) by lia.
  repeat split.
  - apply finished_bytes, Hb.
  - rewrite finished_length by lia. unfold section_length. destruct (finished_field b Hl3) as [-> _]. lia.
  - rewrite finished_length by lia. lia.
  - apply finished_crc, Hb.
Qed.

(** ** packetised sections as packets *)
Fixpoint number_k (pid cc : N) (first : bool) (ps : list (list N)) : list packet :=
  match ps with
  | [] => []
  | c :: ps' => mkPacket 0x47 0 first 0 pid 0 true cc None c :: number_k pid ((cc + 1) mod 16) false ps'
  end.
Lemma number_packets_k pid ps : forall cc first, number_packets pid cc first ps = map encode (number_k pid cc first ps).
Proof. induction ps as [|c ps IH]; intros; [reflexivity|]. cbn [number_packets number_k map]. rewrite <- IH. destruct first; reflexivity. Qed.

Lemma number_k_haspl pid ps : forall cc first, filter k_haspl (number_k pid cc first ps) = number_k pid cc first ps.
Proof. induction ps as [|c ps IH]; intros; [reflexivity|]. cbn [number_k filter k_haspl]. rewrite IH. reflexivity. Qed.
Lemma number_k_payload pid ps : forall cc first, map k_payload (number_k pid cc first ps) = ps.
Proof. induction ps as [|c ps IH]; intros; [reflexivity|]. cbn [number_k map k_payload]. rewrite IH. reflexivity. Qed.
Lemma number_k_ok pid cc first c : cc < 16 -> bytes c -> length c = 184%nat ->
  packet_ok (mkPacket 0x47 0 first 0 pid 0 true cc None c).
Proof.
  intros Hc Hb Hl. repeat split; cbn [k_cc k_payload k_af af_bytes]; try assumption; [|apply bytes_nil].
  unfold encode. cbn [k_sync k_tei k_pusi k_prio k_pid k_tsc k_haspl k_cc k_af k_payload af_bytes app].
  rewrite app_length, Hl. reflexivity.
Qed.
Lemma number_k_continues pid ps : forall cc, cc < 16 -> Forall (fun c => bytes c /\ length c = 184%nat) ps ->
  continues cc (number_k pid ((cc + 1) mod 16) false ps).
Proof.
  induction ps as [|c ps IH]; intros cc Hc Hps; [exact I|].
  inversion Hps as [|? ? [Hb Hl] Hps']; subst. cbn [number_k continues k_haspl k_pusi k_payload k_cc].
  assert (Hm : (cc + 1) mod 16 < 16) by (apply mod_lt_b; lia).
  repeat split; try (apply number_k_ok; assumption).
  - destruct c; [discriminate|congruence].
  - apply IH; assumption.
Qed.
Lemma number_k_last pid ps : forall cc, cc < 16 ->
  last (map k_cc (number_k pid ((cc + 1) mod 16) false ps)) cc = (cc + N.of_nat (length ps)) mod 16.
Proof.
  induction ps as [|c ps IH]; intros cc Hc.
  - cbn. rewrite N.add_0_r, N.mod_small by assumption. reflexivity.
  - cbn [number_k map]. rewrite last_cons. cbn [k_cc]. rewrite IH by (apply mod_lt_b; lia).
    cbn [length]. rewrite N.add_mod_idemp_l by lia. f_equal. lia.
Qed.

Lemma chop_forall n k : forall l, bytes l -> (length l = k * S n)%nat ->
  Forall (fun c => bytes c /\ length c = S n) (chop (S n) l).
Proof.
  induction k as [|k IH]; intros l Hb Hl.
  - destruct l; [constructor|cbn in Hl; lia].
  - rewrite chop_step; [|lia|destruct l; [cbn in Hl; lia|discriminate]].
    constructor.
    + split; [apply bytes_firstn, Hb|]. rewrite firstn_length. lia.
    + apply IH; [apply bytes_skipn, Hb|]. rewrite skipn_length. lia.
Qed.

Lemma concat_length184 ps : Forall (fun c => bytes c /\ length c = 184%nat) ps -> length (concat ps) = (length ps * 184)%nat.
Proof. induction 1 as [|c ps [_ Hc] _ IH]; [reflexivity|]. cbn [concat]. rewrite app_length, IH, Hc. cbn [length]. lia. Qed.

(** the payloads of a packetised section *)
Lemma section_chunks s : bytes s ->
  exists c ps st, chop 184 (pad184 (0 :: s)) = (0 :: c) :: ps /\
    Forall (fun c => bytes c /\ length c = 184%nat) ps /\ bytes c /\ length c = 183%nat /\
    c ++ concat ps = s ++ st /\ (length st < 184)%nat /\ length ps = (length s / 184)%nat.
Proof.
  intros Hb.
  assert (Hb0 : bytes (0 :: s)) by (apply bytes_cons; split; [lia|assumption]).
  assert (Hbp : bytes (pad184 (0 :: s))).
  { unfold pad184. apply bytes_app. split; [assumption|apply bytes_repeat; lia]. }
  pose proof (pad184_length (0 :: s)) as Hm.
  set (st := repeat 255 ((184 - length (0 :: s) mod 184) mod 184)).
  assert (Hst : (length st < 184)%nat).
  { unfold st. rewrite repeat_length. apply Nat.mod_upper_bound. discriminate. }
  assert (Ep : pad184 (0 :: s) = (0 :: s) ++ st) by reflexivity.
  assert (Hk : (length (pad184 (0%N :: s)) = length (pad184 (0%N :: s)) / 184 * 184)%nat).
  { rewrite (Nat.div_mod (length (pad184 (0 :: s))) 184) at 1 by discriminate. rewrite Hm. lia. }
  pose proof (chop_forall 183 (length (pad184 (0 :: s)) / 184) (pad184 (0 :: s)) Hbp Hk) as Hall.
  change (S 183) with 184%nat in Hall.
  pose proof (chop_concat 184 (pad184 (0 :: s)) ltac:(lia)) as Hc.
  destruct (chop 184 (pad184 (0 :: s))) as [|c0 ps] eqn:Ec; [rewrite Ep in Hc; discriminate|].
  inversion Hall as [|? ? [Hb1 Hl1] Hps]; subst.
  destruct c0 as [|z c]; [discriminate|]. cbn [concat app] in Hc. rewrite Ep in Hc. cbn [app] in Hc.
  assert (Ez : z = 0) by congruence. assert (Ecc : c ++ concat ps = s ++ st) by congruence. subst z.
  exists c, ps, st. apply bytes_cons in Hb1 as [_ Hb1]. cbn [length] in Hl1.
  repeat split; try assumption; try lia.
  pose proof (concat_length184 ps Hps) as Hcl.
  assert (Hlen : (183 + length ps * 184 = length s + length st)%nat).
  { rewrite <- Hcl, <- (app_length s st), <- Ecc, app_length. lia. }
  apply (Nat.div_unique _ _ _ (length s - length ps * 184)); lia.
Qed.

Lemma firstn_number_k pid : forall n ps cc first, firstn n (number_k pid cc first ps) = number_k pid cc first (firstn n ps).
Proof. induction n as [|n IH]; intros [|c ps] cc first; try reflexivity. cbn [firstn number_k]. rewrite IH. reflexivity. Qed.

Lemma holds_section p s st : section_ok s -> holds p (s ++ st) -> p_buffer p = s /\ p_size p = length s.
Proof.
  intros (Hb & Hl & H8 & Hc) [H1 _].
  assert (E : section_length (s ++ st) = length s) by (rewrite section_length_app by lia; lia).
  rewrite E in H1. destruct H1 as [Hs Hf]; [rewrite app_length; lia|].
  rewrite firstn_app, Nat.sub_diag, firstn_all, firstn_O, app_nil_r in Hf. auto.
Qed.

Lemma holds_partial p d r : section_ok (d ++ r) -> r <> [] -> holds p d -> psi_check p = Ok false.
Proof.
  intros (Hb & Hl & H8 & Hc) Hr [H1 H2].
  assert (Hrl : (0 < length r)%nat) by (destruct r; [congruence|cbn; lia]).
  apply bytes_app in Hb as [Hb _]. rewrite app_length in *.
  destruct (Nat.le_gt_cases 3 (length d)) as [H|H].
  - destruct (H1 H) as [Hs Hf]. rewrite section_length_app in Hl by assumption.
    rewrite psi_check_spec by (rewrite Hf; apply bytes_firstn, Hb).
    rewrite Hs, Hf, <- Hl, firstn_length.
    destruct (Nat.leb_spec (length d + length r) (Nat.min (length d + length r) (length d))); [lia|].
    rewrite andb_false_r. reflexivity.
  - destruct (H2 H) as [Hs Hf]. unfold psi_check. rewrite Hs. reflexivity.
Qed.

Lemma complete_check p s : section_ok s -> p_buffer p = s -> p_size p = length s -> psi_check p = Ok true.
Proof.
  intros (Hb & Hl & H8 & Hc) E Hs. apply psi_check_true; rewrite E; [assumption|].
  rewrite Hs, firstn_all. auto.
Qed.

Lemma skipn_ne {A} n (l : list A) : (n < length l)%nat -> skipn n l <> [].
Proof. intros H E. apply (f_equal (@length A)) in E. rewrite skipn_length in E. cbn in E. lia. Qed.

(** state after the first [n] packets of a section *)
Lemma mux_prefix m p pid cc s n : bytes s -> cc < 16 -> (1 <= n <= S (length s / 184))%nat ->
  exists p', mux_all m p (firstn n (section_packets pid cc s)) = Ok p' /\ p_pid p' = p_pid p /\
    p_cc p' = (cc + N.of_nat (n - 1)) mod 16 /\
    exists st, (if (n =? S (length s / 184))%nat then holds p' (s ++ st)
                else holds p' (firstn (183 + 184 * (n - 1)) s) /\ (183 + 184 * (n - 1) < length s)%nat).
Proof.
  intros Hb Hcc Hn.
  destruct (section_chunks s Hb) as (c & ps & st & Ec & Hps & Hbc & Hlc & Ecat & Hst & Hlen).
  unfold section_packets. rewrite Ec, number_packets_k, firstn_map, firstn_number_k.
  destruct n as [|n]; [lia|]. replace (S n - 1)%nat with n by lia. cbn [firstn number_k].
  assert (Hps' : Forall (fun c => bytes c /\ length c = 184%nat) (firstn n ps)).
  { rewrite <- (firstn_skipn n ps) in Hps. apply Forall_app in Hps. apply Hps. }
  assert (Hln : length (firstn n ps) = n) by (rewrite firstn_length; lia).
  set (k0 := mkPacket _ _ _ _ _ _ _ _ _ _).
  destruct (mux_legal m p [] k0 (number_k pid ((cc + 1) mod 16) false (firstn n ps)) [] c) as (p' & H & Hh & Hc' & Hp' & _).
  - constructor.
  - apply number_k_ok; [assumption| |cbn [length]; lia]. apply bytes_cons. split; [lia|assumption].
  - reflexivity.
  - reflexivity.
  - reflexivity.
  - cbn. lia.
  - left; reflexivity.
  - apply number_k_continues; assumption.
  - rewrite number_k_haspl. destruct (firstn n ps) as [|x y] eqn:E; [exact I|].
    cbn [number_k k_payload]. inversion Hps' as [|? ? [_ Hx] _]; subst. lia.
  - cbn [app map] in H. exists p'. split; [exact H|]. split; [assumption|]. split.
    { rewrite Hc'. unfold last_cc. rewrite number_k_haspl. cbn [k0 k_cc].
      rewrite number_k_last by assumption. rewrite Hln. reflexivity. }
    unfold carried in Hh. rewrite number_k_haspl, number_k_payload in Hh.
    exists st. destruct (Nat.eqb_spec (S n) (S (length s / 184))) as [E|E].
    + rewrite firstn_all2 in Hh by lia. rewrite <- Ecat. exact Hh.
    + assert (Hlt : (n < length ps)%nat) by lia.
      assert (Hls : (183 + 184 * n < length s)%nat).
      { pose proof (Nat.div_mod (length s) 184 ltac:(discriminate)). lia. }
      split; [|exact Hls].
      replace (firstn (183 + 184 * n) s) with (c ++ concat (firstn n ps)); [exact Hh|].
      transitivity (firstn (183 + 184 * n) (s ++ st)).
      * rewrite <- Ecat. rewrite <- (firstn_skipn n ps) at 2. rewrite concat_app, app_assoc.
        rewrite firstn_app. 
        assert (El : length (c ++ concat (firstn n ps)) = (183 + 184 * n)%nat).
        { rewrite app_length, concat_length184 by assumption. lia. }
        rewrite <- El, Nat.sub_diag, firstn_all, firstn_O, app_nil_r. reflexivity.
      * rewrite firstn_app. replace (183 + 184 * n - length s)%nat with 0%nat by lia.
        rewrite firstn_O, app_nil_r. reflexivity.
Qed.

Lemma section_packets_length pid cc s : bytes s -> length (section_packets pid cc s) = S (length s / 184).
Proof.
  intros Hb. destruct (section_chunks s Hb) as (c & ps & st & Ec & Hps & Hbc & Hlc & Ecat & Hst & Hlen).
  unfold section_packets. rewrite Ec, number_packets_k, map_length.
  transitivity (length (map k_payload (number_k pid cc true ((0 :: c) :: ps)))); [rewrite map_length; reflexivity|].
  rewrite number_k_payload. cbn [length]. lia.
Qed.

(** ** reassembly inverts packetisation *)
Lemma mux_section m p pid cc s : section_ok s -> cc < 16 ->
  mux_all m p (section_packets pid cc s) =
    Ok (mkPsi s (length s) (p_pid p) ((cc + N.of_nat (length s / 184)) mod 16)) /\
  forall n, (1 <= n < length (section_packets pid cc s))%nat ->
    exists p', mux_all m p (firstn n (section_packets pid cc s)) = Ok p' /\ psi_check p' = Ok false.
Proof.
  intros Hs Hcc. pose proof Hs as (Hb & Hl & H8 & Hc). split.
  - destruct (mux_prefix m p pid cc s (S (length s / 184)) Hb Hcc ltac:(lia)) as (p' & H & Hp & Hcc' & st & Hh).
    rewrite <- (section_packets_length pid cc s Hb) in H at 1. rewrite firstn_all in H. rewrite H.
    rewrite Nat.eqb_refl in Hh. destruct (holds_section _ _ _ Hs Hh) as [E1 E2].
    replace (S (length s / 184) - 1)%nat with (length s / 184)%nat in Hcc' by lia.
    destruct p'; cbn in *; subst. reflexivity.
  - intros n Hn. rewrite section_packets_length in Hn by assumption.
    destruct (mux_prefix m p pid cc s n Hb Hcc ltac:(lia)) as (p' & H & Hp & Hcc' & st & Hh).
    exists p'. split; [exact H|]. destruct (Nat.eqb_spec n (S (length s / 184))); [lia|].
    destruct Hh as [Hh Hlt]. rewrite <- (firstn_skipn (183 + 184 * (n - 1)) s) in Hs.
    apply (holds_partial _ _ _ Hs); [apply skipn_ne; assumption|exact Hh].
Qed.

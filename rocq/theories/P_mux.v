(** Proofs about Psi::mux: section reassembly. *)
From Verif Require Import Prelude Layout Facts Facts2 M_bytes M_ts M_crc M_psi M_drive S_ts S_crc S_psi
  P_bytes P_ts P_crc W_ts P_psi.

(** ** what mux does with the payload of a packet *)
Definition trunc (p : psi) : psi :=
  if (p_size p <? length (p_buffer p))%nat
  then with_buffer p (resize (p_buffer p) (p_size p) 0) else p.
Definition trunc_nz (p : psi) : psi :=
  if (negb (p_size p =? 0) && (p_size p <? length (p_buffer p)))%nat
  then with_buffer p (resize (p_buffer p) (p_size p) 0) else p.
Definition drain (p : psi) : psi :=
  if (negb (p_size p =? 0) && (p_size p <? length (p_buffer p)))%nat
  then mkPsi (skipn (p_size p) (p_buffer p)) 0 (p_pid p) (p_cc p) else p.

Definition mux_payload (m : mode) (p : psi) (pusi : bool) (cc : N) (pay : list N) : res psi :=
  match pay with
  | [] => Ok (psi_clear p)
  | b :: t =>
    if pusi then
      if (183 <=? N.to_nat b)%nat then Ok (psi_clear p) else
      restart <- (if (N.to_nat b =? 0)%nat then Ok true else cc_breaks m p cc) ;;
      let p := if restart : bool then psi_clear p else p in
      p <- (match p_buffer p with
            | [] => pay <- slice_from t (N.to_nat b) ;; p <- psi_push p pay ;; Ok (trunc_nz p)
            | _ => psi_push (drain p) t
            end) ;;
      Ok (with_cc p cc)
    else
      brk <- cc_breaks m p cc ;;
      if brk : bool then Ok (psi_clear p) else
      p <- psi_push p (b :: t) ;; Ok (with_cc (trunc p) cc)
  end.

Lemma slice_end {A} (l : list A) a n : length l = n -> slice l a n = slice_from l a.
Proof.
  intros H. unfold slice, slice_from.
  destruct (Nat.leb_spec a n), (Nat.leb_spec n (length l)), (Nat.leb_spec a (length l)); try lia;
    cbn [andb]; try reflexivity.
  f_equal. apply firstn_all2. rewrite skipn_length. lia.
Qed.

Lemma slice_from_skipn {A} (l : list A) a b : (a <= length l)%nat ->
  slice_from l (a + b) = slice_from (skipn a l) b.
Proof.
  intros H. unfold slice_from. rewrite skipn_length.
  destruct (Nat.leb_spec (a + b) (length l)), (Nat.leb_spec b (length l - a)); try lia; [|reflexivity].
  rewrite (skipn_skipn b a l). rewrite ?(Nat.add_comm b a). reflexivity.
Qed.

Lemma psi_mux_eq m p ts : length ts = 188%nat -> bytes ts ->
  psi_mux m p ts =
    if flag ts 27 then
      off <- get_payload_offset m ts ;;
      if (188 <=? N.to_nat off)%nat then Ok (psi_clear p)
      else mux_payload m p (flag ts 9) (field ts 28 4) (skipn (N.to_nat off) ts)
    else Ok p.
Proof.
  intros Hl Hb. unfold psi_mux. rewrite is_payload_spec by lia. cbn [bind].
  destruct (flag ts 27); cbn [negb]; [|reflexivity].
  destruct (get_payload_offset m ts) as [off| |]; cbn [bind]; [|reflexivity|reflexivity].
  destruct (Nat.leb_spec 188 (N.to_nat off)) as [H|H]; [reflexivity|].
  rewrite get_cc_spec by (assumption || lia). cbn [bind].
  rewrite is_pusi_spec by lia. cbn [bind].
  set (o := N.to_nat off) in *.
  pose proof (skipn_length o ts) as Hs.
  destruct (skipn o ts) as [|b t] eqn:E; [cbn [length] in Hs; lia|].
  assert (Hg : get ts o = Ok b).
  { rewrite <- (firstn_skipn o ts), E. rewrite get_app_r; rewrite firstn_length_le by lia; [|lia].
    rewrite Nat.sub_diag. reflexivity. }
  assert (Ht : skipn (S o) ts = t).
  { replace (S o) with (1 + o)%nat by lia. rewrite <- skipn_skipn. rewrite E. reflexivity. }
  rewrite Hg. cbn [bind]. unfold mux_payload.
  destruct (flag ts 9).
  - destruct (183 <=? N.to_nat b)%nat; [reflexivity|].
    destruct (if (N.to_nat b =? 0)%nat then Ok true else cc_breaks m p (field ts 28 4)) as [r| |];
      cbn [bind]; [|reflexivity|reflexivity].
    rewrite !(slice_end ts) by assumption.
    rewrite slice_from_skipn by lia. rewrite Ht.
    set (p1 := if r then psi_clear p else p).
    replace (slice_from ts (S o)) with (@Ok (list N) t); [reflexivity|].
    unfold slice_from. destruct (Nat.leb_spec (S o) (length ts)); [|lia]. rewrite Ht. reflexivity.
  - destruct (cc_breaks m p (field ts 28 4)) as [r| |]; cbn [bind]; [|reflexivity|reflexivity].
    destruct r; [reflexivity|].
    rewrite (slice_end ts) by assumption.
    unfold slice_from. destruct (Nat.leb_spec o (length ts)); [|lia]. rewrite E. cbn [bind].
    reflexivity.
Qed.

(** ** push *)
Lemma section_length_app b t : (3 <= length b)%nat -> section_length (b ++ t) = section_length b.
Proof. intros H. unfold section_length. rewrite field_prefix by lia. reflexivity. Qed.

Lemma u16_field b : bytes b -> (3 <= length b)%nat ->
  exists v, get_u16_at b 1 = Ok v /\ (3 + N.to_nat (N.land v 0x0FFF))%nat = section_length b.
Proof.
  intros Hb Hl. destruct b as [|b0 [|b1 [|b2 t]]]; cbn [length] in Hl; try lia.
  apply bytes_cons in Hb as [H0 Hb]. apply bytes_cons in Hb as [H1 Hb]. apply bytes_cons in Hb as [H2 Hb].
  exists (b1 * 256 + b2). split.
  - unfold get_u16_at. cbn. unfold slice_from. cbn. rewrite lor2 by assumption. reflexivity.
  - unfold section_length. rewrite N2Nat.inj_add. change (N.to_nat 3) with 3%nat. f_equal. f_equal.
    change 0x0FFF with (N.ones 12). rewrite N.land_ones. change (2 ^ 12) with 4096.
    change (b0 :: b1 :: b2 :: t) with ([b0; b1; b2] ++ t). rewrite field_prefix by (cbn; lia).
    unfold field. cbn [unpack flat_map app]. rewrite app_nil_r.
    change (firstn 12 (skipn 12 (bits_of 8 b0 ++ bits_of 8 b1 ++ bits_of 8 b2)))
      with (bits_of 4 b1 ++ bits_of 8 b2).
    rewrite N_of_bits_app, !N_of_bits_bits_of, bits_of_length.
    change (2 ^ N.of_nat 4) with 16. change (2 ^ N.of_nat 8) with 256. dlia.
Qed.

(** [Inv p]: size is unknown (0) while fewer than three bytes are held, otherwise it is
    what the section header says *)
Definition Inv (p : psi) : Prop :=
  bytes (p_buffer p) /\ p_cc p < 16 /\
  ((p_size p = 0%nat /\ (length (p_buffer p) < 3)%nat) \/
   ((3 <= length (p_buffer p))%nat /\ p_size p = section_length (p_buffer p))).

Definition InvB (p : psi) : Prop :=
  bytes (p_buffer p) /\
  ((p_size p = 0%nat /\ (length (p_buffer p) < 3)%nat) \/
   ((3 <= length (p_buffer p))%nat /\ p_size p = section_length (p_buffer p))).

Definition pushed (p : psi) (t : list N) : psi :=
  let b := p_buffer p ++ t in
  mkPsi b (if (length b <? 3)%nat then 0%nat else section_length b) (p_pid p) (p_cc p).

Lemma section_length_ge b : (3 <= section_length b)%nat.
Proof. unfold section_length. lia. Qed.
Lemma section_length_le b : (section_length b <= N.to_nat 4098)%nat.
Proof. unfold section_length. pose proof (field_lt b 12 12). change (2 ^ N.of_nat 12) with 4096 in *. lia. Qed.

Lemma push_eq p t : InvB p \/ p_size p = 0%nat /\ bytes (p_buffer p) -> bytes t ->
  psi_push p t = Ok (pushed p t) /\ InvB (pushed p t).
Proof.
  intros Hp Ht.
  assert (Hb : bytes (p_buffer p ++ t)) by (apply bytes_app; split; [destruct Hp as [[]|[]]|]; assumption).
  assert (HI : InvB (pushed p t)).
  { split; [exact Hb|]. unfold pushed; cbn [p_size p_buffer].
    destruct (Nat.ltb_spec (length (p_buffer p ++ t)) 3); [left|right]; auto with arith. }
  split; [|exact HI].
  unfold psi_push, pushed.
  destruct (Nat.leb_spec 3 (length (p_buffer p ++ t))) as [H3|H3];
  destruct (Nat.ltb_spec (length (p_buffer p ++ t)) 3) as [H3'|H3']; try lia.
  - destruct (Nat.eqb_spec (p_size p) 0) as [Hz|Hz]; cbn [andb].
    + destruct (u16_field _ Hb H3) as (v & -> & Hv). cbn [bind]. rewrite Hv. reflexivity.
    + destruct Hp as [[_ [[]|[Hl Hs]]]|[]]; try contradiction.
      unfold with_buffer. rewrite section_length_app by assumption. rewrite Hs. reflexivity.
  - rewrite andb_false_r. unfold with_buffer. f_equal. f_equal.
    destruct Hp as [[_ [[]|[Hl Hs]]]|[]]; try assumption.
    rewrite app_length in H3. lia.
Qed.

(** ** the counter test *)
Lemma cc_breaks_eq m p cc : p_cc p < 255 \/ (p_cc p < 256 /\ m = Release) ->
  cc_breaks m p cc = Ok (negb (cc =? (p_cc p + 1) mod 16)).
Proof.
  intros H. unfold cc_breaks, addw, U8. change 15 with (N.ones 4).
  destruct (N.ltb_spec (p_cc p + 1) 256); cbn [bind].
  - rewrite N.land_ones. reflexivity.
  - destruct H as [H|[H ->]]; [lia|]. cbn [bind]. rewrite N.land_ones. change (2 ^ 4) with 16.
    assert (E : p_cc p = 255) by lia. rewrite E. reflexivity.
Qed.

Lemma cc_breaks_panic p cc : p_cc p = 255 -> cc_breaks Debug p cc = Panic.
Proof. intros H. unfold cc_breaks, addw, U8. rewrite H. reflexivity. Qed.

(** ** encoded packets *)
Lemma mux_encode m p k : packet_ok k ->
  psi_mux m p (encode k) =
    if k_haspl k then mux_payload m p (k_pusi k) (k_cc k) (k_payload k) else Ok p.
Proof.
  intros (Hl & Hc & Hp & Ha).
  assert (Hb : bytes (encode k)).
  { apply bytes_app. split; [apply layout_bytes|]. apply bytes_app. split; assumption. }
  assert (H5 : (5 <= length (encode k))%nat) by lia.
  rewrite psi_mux_eq by assumption.
  rewrite (payload_offset_spec m _ H5 Hb).
  unfold flag, encode. rewrite f_pl, f_pusi, f_cc, f_af.
  destruct (k_haspl k); [|reflexivity].
  change (negb (1 mod 2 =? 0)) with true. cbn match.
  rewrite (N.mod_small (k_cc k)) by assumption.
  replace (negb ((if k_pusi k then 1 else 0) mod 2 =? 0)) with (k_pusi k) by (destruct (k_pusi k); reflexivity).
  set (H := ts_header _ _ _ _ _ _ _ _ _).
  assert (HH : length H = 4%nat) by reflexivity. clearbody H.
  unfold encode in Hl. rewrite app_length in Hl.
  destruct (k_af k) as [a|] eqn:Ea; cbn [af_bytes] in *.
  - change (negb (1 mod 2 =? 0)) with true. cbn match.
    assert (Hf : field (H ++ (N.of_nat (length a) :: a) ++ k_payload k) 32 8 = N.of_nat (length a)).
    { change 32%nat with (8 * 4 + 0)%nat. rewrite (field_app_n 4 H) by assumption.
      apply bytes_cons in Ha as [Ha _].
      change ((N.of_nat (length a) :: a) ++ k_payload k) with ([N.of_nat (length a)] ++ (a ++ k_payload k)).
      rewrite field_prefix by (cbn; lia). unfold field. cbn [unpack flat_map].
      rewrite app_nil_r. cbn [skipn]. rewrite firstn_all2 by (rewrite bits_of_length; lia).
      rewrite bits_of_small by (change (2 ^ N.of_nat 8) with 256; assumption). reflexivity. }
    rewrite Hf. rewrite app_length in Hl. cbn [length] in Hl.
    change (length (ts_header _ _ _ _ _ _ _ _ _)) with 4%nat in Hl.
    destruct (N.leb_spec (N.of_nat (length a)) 250); [|lia]. cbn [bind].
    replace (N.to_nat (5 + N.of_nat (length a))) with (5 + length a)%nat by lia.
    replace (skipn (5 + length a) (H ++ (N.of_nat (length a) :: a) ++ k_payload k)) with (k_payload k).
    2:{ rewrite app_assoc, skipn_app, skipn_all2 by (rewrite app_length; cbn [length]; lia).
        rewrite app_length. cbn [length app].
        replace (5 + length a - (length H + S (length a)))%nat with 0%nat by lia. reflexivity. }
    destruct (Nat.leb_spec 188 (5 + length a)) as [Hx|Hx]; [|reflexivity].
    destruct (k_payload k) as [|x y]; [reflexivity|cbn [length] in Hl; lia].
  - change (negb (0 mod 2 =? 0)) with false. cbn match. cbn [bind].
    change (N.to_nat 4) with 4%nat. cbn [app]. change (188 <=? 4)%nat with false. cbn match.
    rewrite skipn_app, skipn_all2, HH by lia. reflexivity.
Qed.

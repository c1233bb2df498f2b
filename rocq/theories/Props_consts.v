(** Property theorems C64: coded fields of the delivery system descriptors, and the macro
    that packs them. Specification: S_consts (EN 300 468), S_desc. *)
From Verif Require Import Prelude Layout Facts S_utils M_text M_desc S_desc M_consts S_consts.
From Verif Require P_consts P_desc W_desc.

(** ** vocabulary: the constant the library offers for a meaning *)
Definition constant (x : meaning) : N :=
  match x with
  | West => POSITION_WEST | East => POSITION_EAST
  | Linear_horizontal => POLARIZATION_H | Linear_vertical => POLARIZATION_V
  | Circular_left => POLARIZATION_L | Circular_right => POLARIZATION_R
  | Alpha_035 => ROF_A035 | Alpha_025 => ROF_A025 | Alpha_020 => ROF_A020
  | Cable_not_defined => MODULATION_DVB_C_NOT_DEFINED | Cable_16QAM => MODULATION_DVB_C_16_QAM
  | Cable_32QAM => MODULATION_DVB_C_32_QAM | Cable_64QAM => MODULATION_DVB_C_64_QAM
  | Cable_128QAM => MODULATION_DVB_C_128_QAM | Cable_256QAM => MODULATION_DVB_C_256_QAM
  | Sat_auto => MODULATION_DVB_S_AUTO | Sat_QPSK => MODULATION_DVB_S_QPSK
  | Sat_8PSK => MODULATION_DVB_S_8PSK | Sat_16QAM => MODULATION_DVB_S_16QAM
  | Terr_QPSK => MODULATION_DVB_T_QPSK | Terr_16QAM => MODULATION_DVB_T_16QAM | Terr_64QAM => MODULATION_DVB_T_64QAM
  | Outer_not_defined => FEC_OUTER_NOT_DEFINED | Outer_none => FEC_OUTER_NO_CODING | Outer_RS_204_188 => FEC_OUTER_RS
  | Inner_not_defined => FEC_NOT_DEFINED | Inner_1_2 => FEC_1_2 | Inner_2_3 => FEC_2_3
  | Inner_3_4 => FEC_3_4 | Inner_5_6 => FEC_5_6 | Inner_7_8 => FEC_7_8 | Inner_8_9 => FEC_8_9
  | Inner_3_5 => FEC_3_5 | Inner_4_5 => FEC_4_5 | Inner_9_10 => FEC_9_10 | Inner_none => FEC_NONE
  | MHz_8 => BANDWIDTH_DVB_T_8MHZ | MHz_7 => BANDWIDTH_DVB_T_7MHZ | MHz_6 => BANDWIDTH_DVB_T_6MHZ | MHz_5 => BANDWIDTH_DVB_T_5MHZ
  | Native_non => HIERARCHY_DVB_T_NON_NATIVE | Native_1 => HIERARCHY_DVB_T_A1_NATIVE | Native_2 => HIERARCHY_DVB_T_A2_NATIVE
  | Native_4 => HIERARCHY_DVB_T_A4_NATIVE | Indepth_non => HIERARCHY_DVB_T_NON_IN_DEPTH | Indepth_1 => HIERARCHY_DVB_T_A1_IN_DEPTH
  | Indepth_2 => HIERARCHY_DVB_T_A2_IN_DEPTH | Indepth_4 => HIERARCHY_DVB_T_A4_IN_DEPTH
  | Rate_1_2 => CODE_RATE_DVB_T_1_2 | Rate_2_3 => CODE_RATE_DVB_T_2_3 | Rate_3_4 => CODE_RATE_DVB_T_3_4
  | Rate_5_6 => CODE_RATE_DVB_T_5_6 | Rate_7_8 => CODE_RATE_DVB_T_7_8
  | Guard_1_32 => GUARD_INTERVAL_1_32 | Guard_1_16 => GUARD_INTERVAL_1_16 | Guard_1_8 => GUARD_INTERVAL_1_8 | Guard_1_4 => GUARD_INTERVAL_1_4
  | Mode_2k => TRANSMISSION_MODE_2K | Mode_8k => TRANSMISSION_MODE_8K | Mode_4k => TRANSMISSION_MODE_4K
  end.
(** a meaning of this field whose constant is the standard's *)
Definition means (f : coded) (x : meaning) : Prop := fst (coding x) = f /\ x <> Outer_RS_204_188.
(** values and sizes of the macro as fields of a syntax table *)
Definition as_fields (fs : list (N * N)) : list (nat * N) := map (fun f => (N.to_nat (snd f), fst f)) fs.
Definition in_range (fs : list (N * N)) : Prop := Forall (fun f => 0 < snd f /\ fst f < 2 ^ snd f) fs.

(** * C64 *)
(** the constants have the values of EN 300 468, but for one *)
Theorem C64_codes : forall x, constant x = snd (coding x) <-> x <> Outer_RS_204_188.
Proof. intros x. destruct x; split; intros H; try discriminate; try reflexivity; vm_compute in H; try discriminate; congruence. Qed.
Print Assumptions C64_codes.
(** the constant for Reed-Solomon outer coding is the code of "no outer coding" *)
Theorem C64_outer_refuted : exists x y, x <> y /\ fst (coding x) = fst (coding y) /\ constant x = constant y /\
  constant x <> snd (coding x).
Proof. exists Outer_RS_204_188, Outer_none. repeat split; discriminate. Qed.
Print Assumptions C64_outer_refuted.
(** it is the only collision *)
Theorem C64_distinct : forall x y, fst (coding x) = fst (coding y) -> constant x = constant y ->
  x <> Outer_RS_204_188 -> y <> Outer_RS_204_188 -> x = y.
Proof.
  intros x y. destruct x, y; intros F E X Y; try reflexivity; try discriminate F; try discriminate E; try congruence.
Qed.
Print Assumptions C64_distinct.
Theorem C64_fits : forall x, constant x < 2 ^ width (fst (coding x)).
Proof. intros x. destruct x; reflexivity. Qed.
Print Assumptions C64_fits.
Example C64_codes_ex : constant Cable_256QAM = 5 /\ constant Inner_none = 15 /\ constant Outer_RS_204_188 = 1 /\
  coding Outer_RS_204_188 = (F_outer, 2).
Proof. repeat split. Qed.

Lemma coded_value f x : means f x -> constant x = snd (coding x) /\ constant x < 2 ^ width f.
Proof. intros [<- H]. split; [apply C64_codes; exact H|apply C64_fits]. Qed.

Ltac coded_ok :=
  repeat match goal with H : means ?f ?x |- _ =>
    let E := fresh "E" in let L := fresh "L" in destruct (coded_value f x H) as [E L]; cbn [width] in L; rewrite <- E; clear H E end.
Ltac delivered :=
  eexists; split;
  [ apply P_desc.assemble_spec; split; [|split; [vm_compute; lia|exact I]]; repeat split; assumption
  | cbn [app tlv skipn body d43_freq d43_orbital d43_we d43_pol d43_rof d43_s2 d43_mod d43_rate d43_fec
      d44_freq d44_outer d44_mod d44_rate d44_fec
      d5A_freq d5A_bw d5A_prio d5A_ts d5A_fec d5A_mod d5A_hier d5A_hp d5A_lp d5A_guard d5A_trans d5A_other];
    repeat split; (apply W_desc.field_val; [reflexivity|reflexivity|assumption]) ].

(** a delivery system descriptor filled with the constants carries their meanings: the fields
    behind tag and length, by their bit offsets in EN 300 468 *)
Theorem C64_cable : forall m freq rate outer q inner, freq < 2 ^ 32 -> rate < 10 ^ 6 ->
  means F_outer outer -> means F_cable_modulation q -> means F_inner inner ->
  exists w, desc_assemble m (D44 (mk44 freq (constant outer) (constant q) rate (constant inner))) [] = Ok w /\
    field (skipn 2 w) 44 4 = snd (coding outer) /\ field (skipn 2 w) 48 8 = snd (coding q) /\
    field (skipn 2 w) 84 4 = snd (coding inner).
Proof. intros m freq rate outer q inner Hf Hr Ho Hq Hi. coded_ok. delivered. Qed.
Print Assumptions C64_cable.
Theorem C64_satellite : forall m freq orbital rate we pol rof s2 q inner, freq < 10 ^ 9 -> orbital < 60000 -> rate < 10 ^ 6 -> s2 < 2 ->
  means F_west_east we -> means F_polarization pol -> means F_rolloff rof -> means F_sat_modulation q -> means F_inner inner ->
  exists w, desc_assemble m (D43 (mk43 freq orbital (constant we) (constant pol) (constant rof) s2 (constant q) rate (constant inner))) [] = Ok w /\
    field (skipn 2 w) 48 1 = snd (coding we) /\ field (skipn 2 w) 49 2 = snd (coding pol) /\
    field (skipn 2 w) 51 2 = snd (coding rof) /\ field (skipn 2 w) 53 1 = s2 /\ field (skipn 2 w) 54 2 = snd (coding q) /\
    field (skipn 2 w) 84 4 = snd (coding inner).
Proof. intros m freq orbital rate we pol rof s2 q inner Hf Ho Hr Hs H1 H2 H3 H4 H5. coded_ok. delivered. Qed.
Print Assumptions C64_satellite.
Theorem C64_terrestrial : forall m freq bw prio ts fec q h hp lp g t other, freq < 2 ^ 32 -> prio < 2 -> ts < 2 -> fec < 2 -> other < 2 ->
  means F_bandwidth bw -> means F_constellation q -> means F_hierarchy h -> means F_code_rate hp -> means F_code_rate lp ->
  means F_guard g -> means F_transmission t ->
  exists w, desc_assemble m (D5A (mk5A freq (constant bw) prio ts fec (constant q) (constant h) (constant hp) (constant lp)
      (constant g) (constant t) other)) [] = Ok w /\
    field (skipn 2 w) 32 3 = snd (coding bw) /\ field (skipn 2 w) 40 2 = snd (coding q) /\ field (skipn 2 w) 42 3 = snd (coding h) /\
    field (skipn 2 w) 45 3 = snd (coding hp) /\ field (skipn 2 w) 48 3 = snd (coding lp) /\ field (skipn 2 w) 51 2 = snd (coding g) /\
    field (skipn 2 w) 53 2 = snd (coding t).
Proof. intros m freq bw prio ts fec q h hp lp g t other Hf Hp Hts Hfe Hot H1 H2 H3 H4 H5 H6 H7. coded_ok. delivered. Qed.
Print Assumptions C64_terrestrial.
(** ... and with the Reed-Solomon constant it announces "no outer coding", always *)
Theorem C64_cable_refuted : forall m freq rate q inner, freq < 2 ^ 32 -> rate < 10 ^ 6 ->
  means F_cable_modulation q -> means F_inner inner ->
  exists w, desc_assemble m (D44 (mk44 freq (constant Outer_RS_204_188) (constant q) rate (constant inner))) [] = Ok w /\
    field (skipn 2 w) 44 4 = snd (coding Outer_none) /\ field (skipn 2 w) 44 4 <> snd (coding Outer_RS_204_188).
Proof.
  intros m freq rate q inner Hf Hr Hq Hi. change (constant Outer_RS_204_188) with (constant Outer_none).
  destruct (C64_cable m freq rate Outer_none q inner Hf Hr) as (w & E & F & _); try assumption; [split; [reflexivity|discriminate]|].
  exists w. split; [exact E|]. rewrite F. split; [reflexivity|discriminate].
Qed.
Print Assumptions C64_cable_refuted.
Example C64_cable_ex : desc_assemble Debug (D44 (mk44 346000000 (constant Outer_RS_204_188) (constant Cable_256QAM) 6875 (constant Inner_not_defined))) [] =
  Ok [0x44; 11; 0x03; 0x46; 0x00; 0x00; 0xFF; 0xF1; 0x05; 0x00; 0x68; 0x75; 0x00].
Proof. vm_compute. reflexivity. Qed.
Example C64_satellite_ex : means F_west_east East /\ means F_polarization Circular_left /\
  desc_assemble Debug (D43 (mk43 11044000 780 (constant East) (constant Circular_left) (constant Alpha_020) 1 (constant Sat_8PSK) 44948 (constant Inner_9_10))) [] =
  Ok [0x43; 11; 0x01; 0x10; 0x44; 0x00; 0x01; 0x30; 0xD6; 0x04; 0x49; 0x48; 0x09].
Proof. split; [split; [reflexivity|discriminate]|]. split; [split; [reflexivity|discriminate]|]. vm_compute. reflexivity. Qed.
Example C64_terrestrial_ex : desc_assemble Debug (D5A (mk5A 500000000 (constant MHz_7) 1 1 1 (constant Terr_64QAM) (constant Indepth_2)
    (constant Rate_5_6) (constant Rate_7_8) (constant Guard_1_8) (constant Mode_4k) 1)) [] =
  Ok [0x5A; 11; 0x02; 0xFA; 0xF0; 0x80; 0x3F; 0xB3; 0x95; 0xFF; 0xFF; 0xFF; 0xFF].
Proof. vm_compute. reflexivity. Qed.

(** ** set_bits! *)
(** values that fit their sizes are packed from the most significant bit on; what the sizes
    leave free is zero *)
Theorem C64_packed : forall m w fs, in_range fs -> sizes fs <= w ->
  set_bits m w (Z.of_N w) fs = Ok (N_of_bits (field_bits (as_fields fs ++ [(N.to_nat (w - sizes fs), 0)]))).
Proof. exact P_consts.set_bits_packed. Qed.
Print Assumptions C64_packed.
(** the sizes do not mask: a value that is too large changes the field in front of it *)
Theorem C64_packed_refuted : exists fs v, sizes fs = 8 /\ Forall (fun f => 0 < snd f /\ fst f < 256) fs /\
  set_bits Debug 8 8 fs = Ok v /\ v <> N_of_bits (field_bits (as_fields fs)).
Proof.
  exists [(2, 4); (0x11, 4)], 0x31. split; [reflexivity|]. split; [repeat constructor|]. split; [reflexivity|]. vm_compute. discriminate.
Qed.
Print Assumptions C64_packed_refuted.
(** sizes that exceed the type abort with overflow checks; without, the value lands elsewhere *)
Theorem C64_oversize : forall w v s r, w < s -> set_bits Debug w (Z.of_N w) ((v, s) :: r) = Panic.
Proof.
  intros w v s r H. assert (E : shl_i32 Debug w v (Z.of_N w - Z.of_N s) = Panic).
  { unfold shl_i32. destruct (Z.leb_spec 0 (Z.of_N w - Z.of_N s)); [lia|reflexivity]. }
  destruct r as [|f r]; [exact E|].
  change (set_bits Debug w (Z.of_N w) ((v, s) :: f :: r)) with
    (a <- shl_i32 Debug w v (Z.of_N w - Z.of_N s) ;; b <- set_bits Debug w (Z.of_N w - Z.of_N s) (f :: r) ;; Ok (N.lor a b)).
  rewrite E. reflexivity.
Qed.
Print Assumptions C64_oversize.
(** the uses in eit.rs:77, x43.rs:87, x4e.rs:104, x5a.rs:98-114 and x83.rs:82 are what the
    models of those functions write, in both profiles and for any values *)
Theorem C64_uses : forall m a b c d e,
  set_bits m 8 8 [(a, 3); (b, 1)] = Ok (N.lor (shlw U8 a 5) (shlw U8 b 4)) /\
  set_bits m 8 8 [(a, 1); (b, 2); (c, 2); (d, 1); (e, 2)] =
    Ok (N.lor (shlw U8 a 7) (N.lor (shlw U8 b 5) (N.lor (shlw U8 c 3) (N.lor (shlw U8 d 2) (shlw U8 e 0))))) /\
  set_bits m 8 8 [(a, 4); (b, 4)] = Ok (N.lor (shlw U8 a 4) (shlw U8 b 0)) /\
  set_bits m 8 8 [(a, 3); (b, 1); (c, 1); (d, 1); (3, 2)] =
    Ok (N.lor (shlw U8 a 5) (N.lor (shlw U8 b 4) (N.lor (shlw U8 c 3) (N.lor (shlw U8 d 2) (shlw U8 3 0))))) /\
  set_bits m 8 8 [(a, 2); (b, 3); (c, 3)] = Ok (N.lor (shlw U8 a 6) (N.lor (shlw U8 b 3) (shlw U8 c 0))) /\
  set_bits m 8 8 [(a, 3); (b, 2); (c, 2); (d, 1)] =
    Ok (N.lor (shlw U8 a 5) (N.lor (shlw U8 b 3) (N.lor (shlw U8 c 1) (shlw U8 d 0)))) /\
  set_bits m 16 16 [(a, 1); (0x1F, 5); (b, 10)] = Ok (N.lor (shlw U16 a 15) (N.lor (shlw U16 0x1F 10) (shlw U16 b 0))).
Proof. intros. repeat split; reflexivity. Qed.
Print Assumptions C64_uses.
Example C64_packed_ex : set_bits Debug 8 8 [(1, 1); (1, 2); (0, 2); (1, 1); (2, 2)] = Ok 0xA6 /\
  set_bits Release 8 8 [(5, 3); (1, 1)] = Ok 0xB0 /\ set_bits Debug 8 8 [(1, 9)] = Panic /\ set_bits Debug 8 8 [(1, 0)] = Panic.
Proof. repeat split. Qed.

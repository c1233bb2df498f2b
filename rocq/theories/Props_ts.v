(** Property theorems C01..C12: byte accessors, TS header, PCR, PES.
    Statements only; every proof is [exact lemma]. Specifications: Layout, S_ts. *)
From Verif Require Import Prelude Layout S_ts M_bytes M_ts M_pes.
From Verif Require P_bytes P_ts P_pcr P_pes W_ts.

(** * C01 *)
Theorem C01_get_u16 : forall l, bytes l ->
  get_u16 l = if (2 <=? length l)%nat then Ok (be (firstn 2 l)) else Panic.
Proof. exact P_bytes.get_u16_spec. Qed.
Print Assumptions C01_get_u16.
Theorem C01_get_u24 : forall l, bytes l ->
  get_u24 l = if (3 <=? length l)%nat then Ok (be (firstn 3 l)) else Panic.
Proof. exact P_bytes.get_u24_spec. Qed.
Print Assumptions C01_get_u24.
Theorem C01_get_u32 : forall l, bytes l ->
  get_u32 l = if (4 <=? length l)%nat then Ok (be (firstn 4 l)) else Panic.
Proof. exact P_bytes.get_u32_spec. Qed.
Print Assumptions C01_get_u32.
Theorem C01_set_u16 : forall l v,
  set_u16 l v = if (2 <=? length l)%nat then Ok (to_be 2 v ++ skipn 2 l) else Panic.
Proof. exact P_bytes.set_u16_spec. Qed.
Print Assumptions C01_set_u16.
Theorem C01_set_u24 : forall l v,
  set_u24 l v = if (3 <=? length l)%nat then Ok (to_be 3 v ++ skipn 3 l) else Panic.
Proof. exact P_bytes.set_u24_spec. Qed.
Print Assumptions C01_set_u24.
Theorem C01_set_u32 : forall l v,
  set_u32 l v = if (4 <=? length l)%nat then Ok (to_be 4 v ++ skipn 4 l) else Panic.
Proof. exact P_bytes.set_u32_spec. Qed.
Print Assumptions C01_set_u32.
Theorem C01_roundtrip : forall l l' v,
  (set_u16 l v = Ok l' -> get_u16 l' = Ok (v mod 65536)) /\
  (set_u24 l v = Ok l' -> get_u24 l' = Ok (v mod 16777216)) /\
  (set_u32 l v = Ok l' -> get_u32 l' = Ok (v mod 4294967296)).
Proof. exact W_ts.roundtrip_all. Qed.
Print Assumptions C01_roundtrip.
Example C01_ex : bytes [18; 52; 171; 205; 9] /\ get_u32 [18; 52; 171; 205; 9] = Ok 0x1234ABCD
  /\ set_u24 [0; 0; 0; 7] 0xFF1234AB = Ok [18; 52; 171; 7] /\ set_u16 [1] 5 = Panic.
Proof. repeat split; try reflexivity. apply Facts.bytesb_iff. reflexivity. Qed.

(** * C02 *)
Theorem C02_header_getters : forall ts, (4 <= length ts)%nat -> bytes ts ->
  is_sync ts = Ok (field ts 0 8 =? 0x47) /\
  is_error ts = Ok (flag ts 8) /\
  is_pusi ts = Ok (flag ts 9) /\
  get_pid ts = Ok (field ts 11 13) /\
  is_scrambled ts = Ok (negb (field ts 24 2 =? 0)) /\
  is_adaptation ts = Ok (flag ts 26) /\
  is_payload ts = Ok (flag ts 27) /\
  get_cc ts = Ok (field ts 28 4).
Proof. exact W_ts.header_getters. Qed.
Print Assumptions C02_header_getters.
(** the same through the syntax table: getters return the fields written by it *)
Theorem C02_getters_of_table : forall sync tei pusi prio pid tsc af pl cc rest,
  bytes rest ->
  let ts := ts_header sync tei pusi prio pid tsc af pl cc ++ rest in
  is_sync ts = Ok (sync mod 256 =? 0x47) /\
  is_error ts = Ok (negb (tei mod 2 =? 0)) /\
  is_pusi ts = Ok (negb (pusi mod 2 =? 0)) /\
  get_pid ts = Ok (pid mod 8192) /\
  is_scrambled ts = Ok (negb (tsc mod 4 =? 0)) /\
  is_adaptation ts = Ok (negb (af mod 2 =? 0)) /\
  is_payload ts = Ok (negb (pl mod 2 =? 0)) /\
  get_cc ts = Ok (cc mod 16).
Proof. exact W_ts.getters_of_table. Qed.
Print Assumptions C02_getters_of_table.
Theorem C02_adaptation_size : forall ts, (5 <= length ts)%nat -> bytes ts ->
  get_adaptation_size ts = Ok (field ts 32 8).
Proof. exact P_ts.get_adaptation_size_spec. Qed.
Print Assumptions C02_adaptation_size.
Theorem C02_abort_iff_short : forall ts,
  (is_sync ts = Panic <-> (length ts < 1)%nat) /\
  (is_error ts = Panic <-> (length ts < 2)%nat) /\
  (is_pusi ts = Panic <-> (length ts < 2)%nat) /\
  (get_pid ts = Panic <-> (length ts < 3)%nat) /\
  (is_scrambled ts = Panic <-> (length ts < 4)%nat) /\
  (is_adaptation ts = Panic <-> (length ts < 4)%nat) /\
  (is_payload ts = Panic <-> (length ts < 4)%nat) /\
  (get_cc ts = Panic <-> (length ts < 4)%nat).
Proof. exact P_ts.getters_panic. Qed.
Print Assumptions C02_abort_iff_short.
Theorem C02_null_packet :
  length NULL_PACKET = 188%nat /\ is_sync NULL_PACKET = Ok true /\ get_pid NULL_PACKET = Ok PID_NULL /\
  is_payload NULL_PACKET = Ok true /\ is_adaptation NULL_PACKET = Ok false /\ PID_NULL = 0x1FFF.
Proof. exact W_ts.null_packet. Qed.
Print Assumptions C02_null_packet.
Theorem C02_null_bytes : NULL_PACKET = ts_header 0x47 0 0 0 0x1FFF 0 0 1 0 ++ repeat 0xFF 184.
Proof. vm_compute. reflexivity. Qed.
Print Assumptions C02_null_bytes.
Example C02_ex : let ts := [0x47; 0x40; 0x11; 0x35; 0] in
  bytes ts /\ (4 <= length ts)%nat /\ get_pid ts = Ok 17 /\ get_cc ts = Ok 5 /\ is_pusi ts = Ok true
  /\ is_adaptation ts = Ok true.
Proof. repeat split; try reflexivity; [apply Facts.bytesb_iff; reflexivity | cbn; lia]. Qed.

(** * C03 *)
Theorem C03_setters : forall m sync tei pusi prio pid tsc af pl cc rest v,
  let ts := ts_header sync tei pusi prio pid tsc af pl cc ++ rest in
  (v < 8192 -> set_pid m ts v = Ok (ts_header sync tei pusi prio v tsc af pl cc ++ rest)) /\
  (v < 16 -> set_cc m ts v = Ok (ts_header sync tei pusi prio pid tsc af pl v ++ rest)) /\
  set_payload_0 ts = Ok (ts_header sync tei pusi prio pid tsc af 0 cc ++ rest) /\
  set_payload_1 ts = Ok (ts_header sync tei pusi prio pid tsc af 1 cc ++ rest) /\
  set_pusi_0 ts = Ok (ts_header sync tei 0 prio pid tsc af pl cc ++ rest) /\
  set_pusi_1 ts = Ok (ts_header sync tei 1 prio pid tsc af pl cc ++ rest).
Proof. exact W_ts.setters. Qed.
Print Assumptions C03_setters.
(** every packet is covered by the table form *)
Theorem C03_header_complete : forall ts, (4 <= length ts)%nat -> bytes ts ->
  ts = ts_header (field ts 0 8) (field ts 8 1) (field ts 9 1) (field ts 10 1) (field ts 11 13)
                 (field ts 24 2) (field ts 26 1) (field ts 27 1) (field ts 28 4) ++ skipn 4 ts.
Proof. exact P_ts.ts_header_complete. Qed.
Print Assumptions C03_header_complete.
Theorem C03_set_get : forall m ts v, (4 <= length ts)%nat -> bytes ts ->
  (v < 8192 -> (ts' <- set_pid m ts v ;; get_pid ts') = Ok v) /\
  (v < 16 -> (ts' <- set_cc m ts v ;; get_cc ts') = Ok v) /\
  (ts' <- set_payload_0 ts ;; is_payload ts') = Ok false /\
  (ts' <- set_payload_1 ts ;; is_payload ts') = Ok true /\
  (ts' <- set_pusi_0 ts ;; is_pusi ts') = Ok false /\
  (ts' <- set_pusi_1 ts ;; is_pusi ts') = Ok true.
Proof. exact W_ts.set_get. Qed.
Print Assumptions C03_set_get.
Theorem C03_out_of_range : forall ts v, (4 <= length ts)%nat -> bytes ts ->
  (8192 <= v -> set_pid Debug ts v = Panic) /\ (16 <= v -> set_cc Debug ts v = Panic) /\
  (** without debug assertions: set_cc keeps the low 4 bits; set_pid of v >= 8192
      leaks bits 13..15 of the value into the flags of the second byte *)
  (ts' <- set_cc Release ts v ;; get_cc ts') = Ok (v mod 16) /\
  (v < 65536 -> (ts' <- set_pid Release ts v ;; get_pid ts') = Ok (v mod 8192)).
Proof. exact W_ts.out_of_range. Qed.
Print Assumptions C03_out_of_range.
Theorem C03_set_pid_release_refuted : exists ts v, (4 <= length ts)%nat /\ bytes ts /\ v < 65536 /\
  is_error ts = Ok false /\ (ts' <- set_pid Release ts v ;; is_error ts') = Ok true.
Proof. exact W_ts.set_pid_release_leak. Qed.
Print Assumptions C03_set_pid_release_refuted.
Example C03_ex : set_pid Debug [0x47; 0xE0; 0; 0x9F; 1] 8191 = Ok [0x47; 0xFF; 0xFF; 0x9F; 1] /\ 8191 < 8192.
Proof. split; reflexivity. Qed.

(** * C04 *)
Theorem C04_payload_offset : forall m ts, (5 <= length ts)%nat -> bytes ts ->
  get_payload_offset m ts =
    if flag ts 26
    then if field ts 32 8 <=? 250 then Ok (5 + field ts 32 8)
         else match m with Debug => Panic | Release => Ok (field ts 32 8 - 251) end
    else Ok 4.
Proof. exact P_ts.payload_offset_spec. Qed.
Print Assumptions C04_payload_offset.
(** documented: "If TS packet without payload or offset value is invalid returns 0" *)
Theorem C04_doc_contract_refuted :
  (exists ts, length ts = 188%nat /\ bytes ts /\ is_payload ts = Ok false /\
     forall m, get_payload_offset m ts = Ok 4) /\
  (exists ts, length ts = 188%nat /\ bytes ts /\ field ts 32 8 = 184 /\
     forall m, get_payload_offset m ts = Ok 189) /\
  (exists ts, length ts = 188%nat /\ bytes ts /\ field ts 32 8 = 255 /\
     get_payload_offset Debug ts = Panic /\ get_payload_offset Release ts = Ok 4).
Proof. exact W_ts.payload_offset_doc. Qed.
Print Assumptions C04_doc_contract_refuted.
Example C04_ex : get_payload_offset Debug [0x47; 0x40; 0x2d; 0xf0; 0x19; 0] = Ok 30.
Proof. reflexivity. Qed.

(** * C05 *)
Theorem C05_set_pcr : forall p pcr, (12 <= length p)%nat ->
  set_pcr p pcr = Ok (firstn 6 p ++ pcr_bytes (pcr / 300) 63 (pcr mod 300) ++ skipn 12 p).
Proof. exact P_ts.set_pcr_spec. Qed.
Print Assumptions C05_set_pcr.
Theorem C05_get_pcr : forall m p, (12 <= length p)%nat -> bytes p ->
  get_pcr m p = Ok (field p 48 33 * 300 + field p 87 9).
Proof. exact P_ts.get_pcr_spec. Qed.
Print Assumptions C05_get_pcr.
Theorem C05_roundtrip : forall m p pcr, (12 <= length p)%nat -> bytes p -> pcr <= PCR_MAX ->
  (q <- set_pcr p pcr ;; get_pcr m q) = Ok pcr.
Proof. exact P_ts.pcr_roundtrip. Qed.
Print Assumptions C05_roundtrip.
Theorem C05_short : forall m p pcr, (length p < 12)%nat -> set_pcr p pcr = Panic /\ get_pcr m p = Panic.
Proof. exact W_ts.pcr_short. Qed.
Print Assumptions C05_short.
(** PCR_MAX is the largest value that survives *)
Theorem C05_bound_tight : PCR_MAX = 2 ^ 33 * 300 - 1 /\ forall m,
  (q <- set_pcr (repeat 0 188) (PCR_MAX + 1) ;; get_pcr m q) = Ok 0.
Proof. exact W_ts.pcr_bound. Qed.
Print Assumptions C05_bound_tight.
Example C05_ex : (q <- set_pcr [0x47; 1; 0; 0x20; 0xB7; 0x10; 0; 0; 0; 0; 0; 0] 86405647 ;; Ok (skipn 6 q))
  = Ok [0; 2; 0x32; 0x89; 0x7E; 0xF7].
Proof. reflexivity. Qed.

(** * C06 *)
Theorem C06_is_pcr : forall p, (6 <= length p)%nat -> bytes p ->
  is_pcr p = Ok (flag p 26 && (7 <=? field p 32 8) && flag p 43).
Proof. exact P_ts.is_pcr_spec. Qed.
Print Assumptions C06_is_pcr.
(** when reported present, the 6 PCR bytes (6..11) lie inside the adaptation field
    (bytes 5 .. 4 + adaptation length) and reading them does not abort *)
Theorem C06_pcr_inside : forall m p, length p = 188%nat -> bytes p -> is_pcr p = Ok true ->
  (11 <= 4 + N.to_nat (field p 32 8))%nat /\ exists v, get_pcr m p = Ok v.
Proof. exact W_ts.pcr_inside. Qed.
Print Assumptions C06_pcr_inside.
Example C06_ex : is_pcr [0x47; 1; 0; 0x20; 0xb7; 0x10] = Ok true /\ is_pcr [0x47; 0x40; 0x11; 0x10; 0] = Ok false
  /\ is_pcr [0x47; 1; 0; 0x20; 0x06; 0x10] = Ok false.
Proof. repeat split; reflexivity. Qed.

(** * C07 *)
Theorem C07_pcr_delta : forall m a b, a <= PCR_MAX -> b <= PCR_MAX ->
  exists d, pcr_delta m a b = Ok d /\ d <= PCR_MAX /\
    (a <= b -> d = b - a) /\ (b < a -> d + 1 = b + PCR_NONE - a).
Proof. exact P_pcr.pcr_delta_spec. Qed.
Print Assumptions C07_pcr_delta.
(** modular form: elapsed ticks modulo 2^33*300, minus one tick if the clock wrapped *)
Theorem C07_pcr_delta_modular : forall m a b, a <= PCR_MAX -> b <= PCR_MAX ->
  exists d, pcr_delta m a b = Ok d /\
    (Z.of_N d + (if (b <? a)%N then 1 else 0) = (Z.of_N b - Z.of_N a) mod (2 ^ 33 * 300))%Z.
Proof. exact W_ts.pcr_delta_modular. Qed.
Print Assumptions C07_pcr_delta_modular.
(** so the elapsed time modulo the clock period is not what is returned *)
Theorem C07_true_elapsed_refuted : exists a b, a <= PCR_MAX /\ b <= PCR_MAX /\
  forall m, exists d, pcr_delta m a b = Ok d /\ (Z.of_N d <> (Z.of_N b - Z.of_N a) mod (2 ^ 33 * 300))%Z.
Proof. exact W_ts.pcr_delta_wrong. Qed.
Print Assumptions C07_true_elapsed_refuted.
Theorem C07_abort : forall a b, a < U64 -> b < U64 ->
  (pcr_delta Debug a b = Panic <-> b < a /\ (U64 <= b + PCR_MAX \/ b + PCR_MAX < a)).
Proof. exact P_pcr.pcr_delta_debug. Qed.
Print Assumptions C07_abort.
Example C07_ex : pcr_delta Debug (PCR_MAX - 5000) 5000 = Ok 10000 /\ pcr_delta Release PCR_MAX 0 = Ok 0.
Proof. split; reflexivity. Qed.

(** * C08 *)
Theorem C08_stc_debug : forall last nb delta lb,
  pcr_to_stc Debug last nb delta lb =
    if (delta * nb <? U64) && negb (lb =? 0) && (delta * nb / lb + last <? U64)
    then Ok (delta * nb / lb + last) else Panic.
Proof. exact P_pcr.pcr_to_stc_debug. Qed.
Print Assumptions C08_stc_debug.
Theorem C08_stc_release : forall last nb delta lb,
  pcr_to_stc Release last nb delta lb =
    if lb =? 0 then Panic else Ok ((delta * nb mod U64 / lb + last) mod U64).
Proof. exact P_pcr.pcr_to_stc_release. Qed.
Print Assumptions C08_stc_release.
Theorem C08_stc_constant_rate : forall m last nb delta lb d,
  lb <> 0 -> delta * nb < U64 -> d + last < U64 -> d * lb = delta * nb ->
  pcr_to_stc m last nb delta lb = Ok (last + d).
Proof. exact P_pcr.pcr_to_stc_cbr. Qed.
Print Assumptions C08_stc_constant_rate.
Theorem C08_to_us : forall pcr, pcr_to_us pcr * 27 <= pcr < (pcr_to_us pcr + 1) * 27.
Proof. exact P_pcr.pcr_to_us_spec. Qed.
Print Assumptions C08_to_us.
Theorem C08_to_ms : forall pcr, pcr_to_ms pcr * 27000 <= pcr < (pcr_to_ms pcr + 1) * 27000.
Proof. exact P_pcr.pcr_to_ms_spec. Qed.
Print Assumptions C08_to_ms.
Theorem C08_bitrate : forall m delta nb, 27000 <= delta -> nb * 8 < U64 ->
  exists r, pcr_delta_bitrate m delta nb = Ok r /\
    r * (delta / 27000) <= 8 * nb < (r + 1) * (delta / 27000).
Proof. exact P_pcr.pcr_bitrate_ok. Qed.
Print Assumptions C08_bitrate.
Theorem C08_bitrate_abort : forall delta nb,
  (pcr_delta_bitrate Debug delta nb = Panic <-> delta < 27000 \/ U64 <= nb * 8) /\
  (pcr_delta_bitrate Release delta nb = Panic <-> delta < 27000).
Proof. exact P_pcr.pcr_bitrate_panic. Qed.
Print Assumptions C08_bitrate_abort.
Example C08_ex : pcr_to_stc Debug 354924281094 7520 (354924281094 - 354923263808) 7708 = Ok 354925273568
  /\ pcr_to_stc Release 5 188 540 376 = Ok (5 + 270) /\ 270 * 376 = 540 * 188
  /\ pcr_delta_bitrate Debug 27000 188 = Ok 1504.
Proof. repeat split; reflexivity. Qed.

(** * C09 *)
Theorem C09_jitter : forall m pcr stc, pcr <= PCR_MAX -> stc <= PCR_MAX ->
  exists d, pcr_jitter_ns m pcr stc = Ok (Z.quot (d * 1000) 27) /\
    (let diff := (Z.of_N pcr - Z.of_N stc)%Z in
     (0 <= diff <= 27000000 -> d = diff)%Z /\
     (- (2576980377599 - 27000000) < diff < 0 -> d = diff)%Z /\
     (diff <= - (2576980377599 - 27000000) -> d = diff + 2576980377600 - 1)%Z /\
     (27000000 < diff -> d = diff - 2576980377600 + 1)%Z).
Proof. exact P_pcr.pcr_jitter_spec. Qed.
Print Assumptions C09_jitter.
Theorem C09_jitter_zero : forall m pcr, pcr < U64 -> pcr_jitter_ns m pcr pcr = Ok 0%Z.
Proof. exact W_ts.jitter_zero. Qed.
Print Assumptions C09_jitter_zero.
Example C09_ex : pcr_jitter_ns Debug 27000 54000 = Ok (-1000000)%Z /\ pcr_jitter_ns Debug 54 0 = Ok 2000%Z
  /\ pcr_jitter_ns Release 1 PCR_MAX = Ok 37%Z.
Proof. repeat split; reflexivity. Qed.

(** * C10 *)
Theorem C10_get_pts : forall p, (14 <= length p)%nat -> bytes p ->
  get_pts p = Ok (field p 76 3 * 2 ^ 30 + field p 80 15 * 2 ^ 15 + field p 96 15).
Proof. exact P_pes.get_pts_spec. Qed.
Print Assumptions C10_get_pts.
Theorem C10_get_dts : forall p, (19 <= length p)%nat -> bytes p ->
  get_dts p = Ok (field p 116 3 * 2 ^ 30 + field p 120 15 * 2 ^ 15 + field p 136 15).
Proof. exact P_pes.get_dts_spec. Qed.
Print Assumptions C10_get_dts.
Theorem C10_pts_of_table : forall pre post prefix ts m1 m2 m3,
  length pre = 9%nat -> bytes pre -> bytes post -> ts < 2 ^ 33 ->
  get_pts (pre ++ pts_bytes prefix ts m1 m2 m3 ++ post) = Ok ts.
Proof. exact P_pes.get_pts_layout. Qed.
Print Assumptions C10_pts_of_table.
Theorem C10_dts_of_table : forall pre post prefix ts m1 m2 m3,
  length pre = 14%nat -> bytes pre -> bytes post -> ts < 2 ^ 33 ->
  get_dts (pre ++ pts_bytes prefix ts m1 m2 m3 ++ post) = Ok ts.
Proof. exact P_pes.get_dts_layout. Qed.
Print Assumptions C10_dts_of_table.
Theorem C10_range : forall p v, bytes p -> (get_pts p = Ok v \/ get_dts p = Ok v) -> v < 2 ^ 33.
Proof. exact P_pes.pts_range. Qed.
Print Assumptions C10_range.
Theorem C10_abort_iff_short : forall p,
  (get_pts p = Panic <-> (length p < 14)%nat) /\ (get_dts p = Panic <-> (length p < 19)%nat).
Proof. exact W_ts.pts_panic. Qed.
Print Assumptions C10_abort_iff_short.
Example C10_ex : pts_bytes 3 0x123456789 1 1 1 = [0x39; 0x8D; 0x15; 0xCF; 0x13]
  /\ get_pts (repeat 0 9 ++ pts_bytes 3 0x123456789 1 1 1) = Ok 0x123456789 /\ 0x123456789 < 2 ^ 33.
Proof. repeat split; reflexivity. Qed.

(** * C11 *)
Theorem C11_accessors : forall m p, (9 <= length p)%nat -> bytes p ->
  is_prefix p = Ok (field p 0 24 =? 1) /\
  is_syntax_spec p = Ok (negb (existsb (N.eqb (field p 24 8)) no_optional_header)) /\
  pes_get_length m p = Ok (field p 32 16) /\
  is_pts p = Ok (flag p 56) /\
  is_dts p = Ok (flag p 57) /\
  pes_get_payload_offset m p =
    Ok (if existsb (N.eqb (field p 24 8)) no_optional_header then 6 else 9 + field p 64 8).
Proof. exact W_ts.pes_accessors. Qed.
Print Assumptions C11_accessors.
Example C11_ex : let p := [0; 0; 1; 0xE0; 0x12; 0x34; 0x80; 0xC0; 10] in
  is_prefix p = Ok true /\ pes_get_length Debug p = Ok 0x1234 /\ pes_get_payload_offset Debug p = Ok 19
  /\ is_pts p = Ok true /\ is_dts p = Ok true /\ is_syntax_spec [0; 0; 1; 0xBE] = Ok false.
Proof. repeat split; reflexivity. Qed.

(** * C12 *)
Theorem C12_pts_delta : forall m a b, a <= PTS_MAX -> b <= PTS_MAX ->
  exists d, pts_delta m a b = Ok d /\ d <= PTS_MAX /\
    (a <= b -> d = b - a) /\ (b < a -> d + 1 = b + 2 ^ 33 - a).
Proof. exact P_pes.pts_delta_spec. Qed.
Print Assumptions C12_pts_delta.
Theorem C12_true_elapsed_refuted : exists a b, a <= PTS_MAX /\ b <= PTS_MAX /\
  forall m, exists d, pts_delta m a b = Ok d /\ (Z.of_N d <> (Z.of_N b - Z.of_N a) mod (2 ^ 33))%Z.
Proof. exact W_ts.pts_delta_wrong. Qed.
Print Assumptions C12_true_elapsed_refuted.
Theorem C12_to_ms : forall pts, pts_to_ms pts * 90 <= pts < (pts_to_ms pts + 1) * 90.
Proof. exact P_pes.pts_to_ms_spec. Qed.
Print Assumptions C12_to_ms.
Example C12_ex : pts_delta Debug (PTS_MAX - 5) 5 = Ok 10 /\ pts_to_ms 900 = 10 /\ PTS_MAX = 2 ^ 33 - 1.
Proof. repeat split; reflexivity. Qed.

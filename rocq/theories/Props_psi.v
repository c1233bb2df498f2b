(** Property theorems C15, C34-C43: sections. Specification: S_psi (section_ok,
    section_packets, packets and their encoding), S_crc (burst, weight).
    [mux_all] feeds packets one after another to one receiver (M_drive). *)
From Verif Require Import Prelude Layout S_ts S_crc S_psi M_ts M_psi M_drive.
From Verif Require P_psi P_sect P_mux3 W_psi Facts.

(** ** vocabulary of the statements *)
(** the section bytes hit by the error pattern [e] *)
Definition corrupt (p : psi) (e : list N) : psi :=
  with_buffer p (xor_bytes (firstn (p_size p) (p_buffer p)) e ++ skipn (p_size p) (p_buffer p)).
(** size unknown while the header is incomplete, else taken from the header *)
Definition consistent (p : psi) : Prop :=
  bytes (p_buffer p) /\
  ((p_size p = 0%nat /\ (length (p_buffer p) < 3)%nat) \/
   ((3 <= length (p_buffer p))%nat /\ p_size p = section_length (p_buffer p))).
(** states in which a start packet that skips some bytes begins a new section *)
Definition may_start (p : psi) (k : packet) (skipped : list N) : Prop :=
  skipped = [] \/
  (p_cc p < 16 /\ ((consistent p /\ p_buffer p = []) \/ k_cc k <> (p_cc p + 1) mod 16)).
(** a start packet with nonzero pointer field *)
Definition nz_pointer (ts : list N) : Prop :=
  flag ts 27 = true /\ flag ts 9 = true /\ nth (N.to_nat (payload_at ts)) ts 0 <> 0.
Definition debug_wrap (m : mode) (p : psi) : Prop := m = Debug /\ p_cc p = 255.
(** when a packet makes mux abort *)
Definition mux_aborts (m : mode) (p : psi) (ts : list N) : Prop :=
  let off := payload_at ts in
  let pointer := nth (N.to_nat off) ts 0 in
  flag ts 27 = true /\
  ((m = Debug /\ flag ts 26 = true /\ 250 < field ts 32 8) \/
   (off < 188 /\
    if flag ts 9
    then 0 < pointer < 183 /\
         (debug_wrap m p \/
          ((p_buffer p = [] \/ field ts 28 4 <> (p_cc p + 1) mod 16) /\ 188 < off + 1 + pointer))
    else debug_wrap m p)).

(** * C15 *)
Theorem C15_burst_detected : forall p e w, bytes (p_buffer p) -> psi_check p = Ok true ->
  bytes e -> length e = p_size p -> (w <= 32)%nat -> burst w e -> psi_check (corrupt p e) = Ok false.
Proof. exact W_psi.burst_caught. Qed.
Print Assumptions C15_burst_detected.
Theorem C15_three_bits_detected : forall p e, bytes (p_buffer p) -> psi_check p = Ok true ->
  bytes e -> length e = p_size p -> (p_size p <= N.to_nat 4098)%nat -> (1 <= weight e <= 3)%nat ->
  psi_check (corrupt p e) = Ok false.
Proof. exact W_psi.few_caught. Qed.
Print Assumptions C15_three_bits_detected.
Definition ex_section : list N := finished [0x42; 0xF0; 0; 1; 2; 3; 4; 5; 6; 7; 8].
Example C15_ex : psi_check (mkPsi ex_section 15 0 0) = Ok true /\
  psi_check (corrupt (mkPsi ex_section 15 0 0) ([0; 0; 0; 0x80; 0; 0; 1] ++ repeat 0 8)) = Ok false.
Proof. split; vm_compute; reflexivity. Qed.

(** * C34 *)
Theorem C34_finalize : forall p, p_size p = 0%nat -> bytes (p_buffer p) ->
  (4 <= length (p_buffer p) <= N.to_nat 4094)%nat ->
  exists p', psi_finalize p = Ok p' /\
    p_size p' = (length (p_buffer p) + 4)%nat /\ length (p_buffer p') = p_size p' /\
    p_pid p' = p_pid p /\ p_cc p' = p_cc p /\
    (forall i, (i < length (p_buffer p))%nat -> i <> 1%nat -> i <> 2%nat -> nth i (p_buffer p') 0 = nth i (p_buffer p) 0) /\
    field (p_buffer p') 8 4 = field (p_buffer p) 8 4 /\
    section_length (p_buffer p') = p_size p' /\
    crc_spec (p_buffer p') = 0 /\ bytes (p_buffer p') /\
    psi_check p' = Ok true /\ psi_finalize p' = Ok p'.
Proof. exact W_psi.finalize_prop. Qed.
Print Assumptions C34_finalize.
(** beyond 4094 bytes the length field does not hold the length, yet check accepts it *)
Theorem C34_oversize_refuted : exists p p', p_size p = 0%nat /\ bytes (p_buffer p) /\
  (N.to_nat 4094 < length (p_buffer p))%nat /\
  psi_finalize p = Ok p' /\ psi_check p' = Ok true /\ section_length (p_buffer p') <> p_size p'.
Proof. exact W_psi.finalize_oversize. Qed.
Print Assumptions C34_oversize_refuted.
Example C34_ex : psi_finalize (mkPsi [0x42; 0xB0; 0; 1; 2; 3; 4; 5] 0 7 3) =
  Ok (mkPsi [0x42; 0xB0; 9; 1; 2; 3; 4; 5; 0x04; 0xD6; 0xDB; 0xAE] 12 7 3).
Proof. vm_compute. reflexivity. Qed.

(** * C35 *)
Theorem C35_packets : forall m p dst, p_pid p < 8192 -> p_cc p < 16 ->
  (0 < p_size p <= length (p_buffer p))%nat -> bytes (p_buffer p) ->
  let s := firstn (p_size p) (p_buffer p) in
  exists pk, psi_demux m p dst = Ok (with_cc p ((p_cc p + N.of_nat (length pk)) mod 16), dst ++ concat pk) /\
    length pk = ((p_size p + 1 + 183) / 184)%nat /\
    (forall i, (i < length pk)%nat -> let ts := nth i pk [] in
       length ts = 188%nat /\ is_sync ts = Ok true /\ is_error ts = Ok false /\ get_pid ts = Ok (p_pid p) /\
       is_scrambled ts = Ok false /\ is_adaptation ts = Ok false /\ is_payload ts = Ok true /\
       is_pusi ts = Ok (i =? 0)%nat /\ get_cc ts = Ok ((p_cc p + N.of_nat i) mod 16)) /\
    exists st, (st < 184)%nat /\ concat (map (skipn 4) pk) = 0 :: s ++ repeat 255 st.
Proof. exact W_psi.demux_prop. Qed.
Print Assumptions C35_packets.
Theorem C35_empty_section : forall m p dst, p_size p = 0%nat -> psi_demux m p dst = Ok (p, dst ++ repeat 255 188).
Proof. exact P_psi.psi_demux_empty. Qed.
Print Assumptions C35_empty_section.
(** so not every packet produced has a sync byte *)
Theorem C35_empty_refuted : forall m, exists p dst p' out, psi_demux m p dst = Ok (p', dst ++ out) /\
  p_size p = 0%nat /\ length out = 188%nat /\ is_sync out = Ok false.
Proof. exact W_psi.demux_empty_bad. Qed.
Print Assumptions C35_empty_refuted.
Example C35_ex : exists p out, psi_demux Debug (mkPsi (repeat 7 (N.to_nat 200)) (N.to_nat 200) 0x12 15) [1; 2] = Ok (p, out) /\
  length out = N.to_nat 378 /\ p_cc p = 1 /\ firstn 8 out = [1; 2; 0x47; 0x40; 0x12; 0x1F; 0; 7] /\
  firstn 6 (skipn 190 out) = [0x47; 0; 0x12; 0x10; 7; 7].
Proof. eexists _, _. split; [vm_compute; reflexivity|]. repeat split. Qed.

(** * C36 *)
Theorem C36_mux_demux : forall m q p dst s extra, section_ok s -> p_buffer q = s ++ extra -> p_size q = length s ->
  p_pid q < 8192 -> p_cc q < 16 ->
  exists pk q', psi_demux m q dst = Ok (q', dst ++ concat pk) /\ Forall (fun ts => length ts = 188%nat) pk /\
    (exists p', mux_all m p pk = Ok p' /\ p_buffer p' = s /\ p_size p' = length s /\ p_pid p' = p_pid p /\
       psi_check p' = Ok true) /\
    (forall n, (1 <= n < length pk)%nat -> exists p', mux_all m p (firstn n pk) = Ok p' /\ psi_check p' = Ok false).
Proof. exact W_psi.mux_demux. Qed.
Print Assumptions C36_mux_demux.
Example C36_ex : exists q out, psi_demux Release (mkPsi ex_section 15 18 9) [] = Ok (q, out) /\
  psi_mux Release (mkPsi [1; 2; 3; 4] 77 5 255) out = Ok (mkPsi ex_section 15 5 9).
Proof. eexists _, _. split; vm_compute; reflexivity. Qed.

(** * C37 *)
Theorem C37_any_packetisation : forall m p pre k0 ks skipped c1 s stuffing,
  Forall (fun k => packet_ok k /\ k_haspl k = false) pre ->
  packet_ok k0 -> k_haspl k0 = true -> k_pusi k0 = true ->
  k_payload k0 = N.of_nat (length skipped) :: skipped ++ c1 -> (length skipped < 183)%nat ->
  may_start p k0 skipped -> continues (k_cc k0) ks ->
  match filter k_haspl ks with [] => True | k :: _ => (3 <= length c1 + length (k_payload k))%nat end ->
  section_ok s -> c1 ++ carried ks = s ++ stuffing ->
  mux_all m p (map encode (pre ++ k0 :: ks)) = Ok (mkPsi s (length s) (p_pid p) (last_cc (k_cc k0) ks)) /\
  psi_check (mkPsi s (length s) (p_pid p) (last_cc (k_cc k0) ks)) = Ok true.
Proof. exact W_psi.legal_complete. Qed.
Print Assumptions C37_any_packetisation.
Theorem C37_not_before_complete : forall m p pre k0 ks skipped c1 missing,
  Forall (fun k => packet_ok k /\ k_haspl k = false) pre ->
  packet_ok k0 -> k_haspl k0 = true -> k_pusi k0 = true ->
  k_payload k0 = N.of_nat (length skipped) :: skipped ++ c1 -> (length skipped < 183)%nat ->
  may_start p k0 skipped -> continues (k_cc k0) ks ->
  match filter k_haspl ks with [] => True | k :: _ => (3 <= length c1 + length (k_payload k))%nat end ->
  section_ok ((c1 ++ carried ks) ++ missing) -> missing <> [] ->
  exists p', mux_all m p (map encode (pre ++ k0 :: ks)) = Ok p' /\ psi_check p' = Ok false.
Proof. exact W_psi.legal_partial. Qed.
Print Assumptions C37_not_before_complete.
(** without the condition on the first two chunks sections are lost *)
Theorem C37_small_chunks_refuted : exists s k0 ks, section_ok s /\ packet_ok k0 /\ k_haspl k0 = true /\ k_pusi k0 = true /\
  (exists c1, k_payload k0 = 0 :: c1 /\ c1 <> [] /\ c1 ++ carried ks = s) /\ continues (k_cc k0) ks /\
  forall m, exists p', mux_all m psi_default (map encode (k0 :: ks)) = Ok p' /\ psi_check p' = Ok false.
Proof. exact W_psi.small_chunks_lost. Qed.
Print Assumptions C37_small_chunks_refuted.
(** three chunks of 3, 5 and 7 bytes behind adaptation fields, with an interleaved
    packet without payload and two bytes skipped by the pointer field *)
Definition ex_fill (pusi : bool) (cc : N) (pay : list N) : packet :=
  mkPacket 0x47 0 pusi 0 256 0 true cc (Some (repeat 255 (183 - length pay))) pay.
Example C37_ex : mux_all Debug (mkPsi [9; 9; 9] 70 3 4)
  (map encode [ex_fill true 2 ([2; 0xAA; 0xBB] ++ firstn 3 ex_section);
               ex_fill false 3 (firstn 5 (skipn 3 ex_section));
               mkPacket 0x47 0 false 0 256 0 false 3 (Some (repeat 0 183)) [];
               ex_fill false 4 (skipn 8 ex_section)]) = Ok (mkPsi ex_section 15 3 4).
Proof. vm_compute. reflexivity. Qed.

(** * C38 *)
Theorem C38_break_clears : forall m p k, packet_ok k -> k_haspl k = true -> k_pusi k = false -> p_cc p < 16 ->
  k_cc k <> (p_cc p + 1) mod 16 -> psi_mux m p (encode k) = Ok (mkPsi [] 0 (p_pid p) (p_cc p)).
Proof. exact P_mux3.mux_break. Qed.
Print Assumptions C38_break_clears.
(** [g] packets missing after the first [i] packets of a section (and at most 16 packets
    from there on) *)
Theorem C38_lost_not_delivered : forall m p pid cc s i g, bytes s -> cc < 16 -> (1 <= i)%nat -> (1 <= g)%nat ->
  (i + g < length (section_packets pid cc s))%nat -> (length (section_packets pid cc s) <= i + 16)%nat ->
  exists p', mux_all m p (firstn i (section_packets pid cc s) ++ skipn (i + g) (section_packets pid cc s)) = Ok p' /\
    p_buffer p' = [] /\ p_size p' = 0%nat /\ psi_check p' = Ok false.
Proof. exact P_mux3.mux_lost. Qed.
Print Assumptions C38_lost_not_delivered.
Theorem C38_start_restarts : forall m p1 p2 k c, packet_ok k -> k_haspl k = true -> k_pusi k = true -> k_payload k = 0 :: c ->
  exists q, psi_mux m p1 (encode k) = Ok (with_pid q (p_pid p1)) /\
            psi_mux m p2 (encode k) = Ok (with_pid q (p_pid p2)) /\ p_cc q = k_cc k.
Proof. exact W_psi.restart. Qed.
Print Assumptions C38_start_restarts.
(** a continuation packet is taken for the start of a section *)
Theorem C38_orphan_refuted : exists k p', packet_ok k /\ k_haspl k = true /\ k_pusi k = false /\
  (forall m, psi_mux m psi_default (encode k) = Ok p') /\ psi_check p' = Ok true.
Proof. exact W_psi.orphan. Qed.
Print Assumptions C38_orphan_refuted.
(** with more than 16 packets after the gap, content of a section is delivered as a section *)
Theorem C38_long_gap_refuted : exists s i, section_ok s /\ (0 < i < length (section_packets 18 5 s))%nat /\
  forall m, exists n p', mux_all m psi_default
      (firstn n (firstn i (section_packets 18 5 s) ++ skipn (S i) (section_packets 18 5 s))) = Ok p' /\
    psi_check p' = Ok true /\ p_buffer p' <> s.
Proof. exact W_psi.gap_false_section. Qed.
Print Assumptions C38_long_gap_refuted.
Example C38_ex : exists p', mux_all Debug psi_default
  (let l := section_packets 18 5 (finished (0x42 :: 0xF0 :: repeat 7 (N.to_nat 500))) in
   firstn 1 l ++ skipn 2 l) = Ok p' /\ p_buffer p' = [] /\ p_cc p' = 5.
Proof. eexists. split; [vm_compute; reflexivity|]. split; reflexivity. Qed.

(** * C39 *)
(** the receiver holds the first bytes of [s1]; the rest comes before the pointer *)
Theorem C39_completes_previous : forall m p k s1 pre r1 rest, section_ok s1 -> s1 = pre ++ r1 ->
  p_buffer p = pre -> consistent p -> pre <> [] -> p_cc p < 16 -> r1 <> [] ->
  packet_ok k -> k_haspl k = true -> k_pusi k = true -> k_cc k = (p_cc p + 1) mod 16 ->
  k_payload k = N.of_nat (length r1) :: r1 ++ rest -> (length r1 < 183)%nat ->
  psi_mux m p (encode k) = Ok (mkPsi (s1 ++ rest) (length s1) (p_pid p) (k_cc k)).
Proof. exact P_mux3.mux_middle. Qed.
Print Assumptions C39_completes_previous.
Theorem C39_previous_visible : forall p s rest, section_ok s -> p_buffer p = s ++ rest -> p_size p = length s ->
  bytes rest -> psi_check p = Ok true.
Proof. exact P_mux3.check_extra. Qed.
Print Assumptions C39_previous_visible.
(** the section that began there is lost with the next continuation packet, and [s1] is
    delivered again *)
Theorem C39_next_lost : forall m s1 rest pid cc k, section_ok s1 -> bytes rest -> cc < 16 ->
  packet_ok k -> k_haspl k = true -> k_pusi k = false -> k_payload k <> [] -> k_cc k = (cc + 1) mod 16 ->
  psi_mux m (mkPsi (s1 ++ rest) (length s1) pid cc) (encode k) = Ok (mkPsi s1 (length s1) pid (k_cc k)).
Proof. exact P_mux3.mux_second_lost. Qed.
Print Assumptions C39_next_lost.
(** it survives only if it ends in a start packet *)
Theorem C39_next_found : forall m s1 rest pid cc k r2 rest2 s2, section_ok s1 -> section_ok s2 -> bytes rest -> cc < 16 ->
  rest <> [] -> s2 = rest ++ r2 -> r2 <> [] ->
  packet_ok k -> k_haspl k = true -> k_pusi k = true -> k_cc k = (cc + 1) mod 16 ->
  k_payload k = N.of_nat (length r2) :: r2 ++ rest2 -> (length r2 < 183)%nat ->
  psi_mux m (mkPsi (s1 ++ rest) (length s1) pid cc) (encode k) = Ok (mkPsi (s2 ++ rest2) (length s2) pid (k_cc k)).
Proof. exact P_mux3.mux_second_found. Qed.
Print Assumptions C39_next_found.
Definition ex_section2 : list N := finished [0x46; 0xF0; 0; 9; 9; 9; 9; 9].
Example C39_ex :
  mux_all Debug psi_default (map encode [ex_fill true 1 (0 :: firstn 6 ex_section);
                                         ex_fill true 2 ([9] ++ skipn 6 ex_section ++ firstn 5 ex_section2)])
    = Ok (mkPsi (ex_section ++ firstn 5 ex_section2) 15 0 2) /\
  mux_all Debug psi_default (map encode [ex_fill true 1 (0 :: firstn 6 ex_section);
                                         ex_fill true 2 ([9] ++ skipn 6 ex_section ++ firstn 5 ex_section2);
                                         ex_fill false 3 (skipn 5 ex_section2)])
    = Ok (mkPsi ex_section 15 0 3) /\
  mux_all Debug psi_default (map encode [ex_fill true 1 (0 :: firstn 6 ex_section);
                                         ex_fill true 2 ([9] ++ skipn 6 ex_section ++ firstn 5 ex_section2);
                                         ex_fill true 3 ([7] ++ skipn 5 ex_section2 ++ [1; 2])])
    = Ok (mkPsi (ex_section2 ++ [1; 2]) 12 0 3).
Proof. repeat split; vm_compute; reflexivity. Qed.

(** * C40 *)
Theorem C40_abort_exactly : forall m p ts, length ts = 188%nat -> bytes ts -> p_cc p < 256 ->
  (mux_aborts m p ts -> psi_mux m p ts = Panic) /\
  (~ mux_aborts m p ts -> exists p', psi_mux m p ts = Ok p').
Proof. exact P_mux3.mux_panic_iff. Qed.
Print Assumptions C40_abort_exactly.
Example C40_ex : 
  (forall m, psi_mux m psi_default (encode (mkPacket 0x47 0 true 0 17 0 true 9 (Some (repeat 0 100)) (100 :: repeat 1 82))) = Panic) /\
  (exists p', psi_mux Debug psi_default (encode (mkPacket 0x47 0 true 0 17 0 true 9 (Some (repeat 0 100)) (60 :: repeat 1 82))) = Ok p').
Proof. split; [intros []; vm_compute; reflexivity|]. eexists. vm_compute. reflexivity. Qed.

(** * C41 *)
Theorem C41_bounded : forall m l p', Forall (fun ts => length ts = 188%nat /\ bytes ts /\ ~ nz_pointer ts) l ->
  mux_all m psi_default l = Ok p' -> (length (p_buffer p') <= N.to_nat 4098)%nat.
Proof. exact W_psi.memory_bound. Qed.
Print Assumptions C41_bounded.
Theorem C41_unbounded : forall m n, exists l p', Forall (fun ts => length ts = 188%nat /\ bytes ts) l /\
  mux_all m psi_default l = Ok p' /\ (n <= length (p_buffer p'))%nat.
Proof. exact P_mux3.grow_unbounded. Qed.
Print Assumptions C41_unbounded.
Example C41_ex : exists p', mux_all Release psi_default
  (encode (ex_fill true 1 [0; 0x42; 0xFF; 0xFF]) ::
   map (fun i => encode (mkPacket 0x47 0 false 0 17 0 true ((2 + N.of_nat i) mod 16) None (repeat 5 184))) (seq 0 30)) = Ok p' /\
  length (p_buffer p') = N.to_nat 4098.
Proof. eexists. split; vm_compute; reflexivity. Qed.

(** * C42 *)
Theorem C42_invariant : forall m l p', Forall (fun ts => length ts = 188%nat /\ bytes ts) l ->
  mux_all m psi_default l = Ok p' -> consistent p' /\ p_cc p' < 16 /\ p_pid p' = 0.
Proof. exact W_psi.reachable_inv. Qed.
Print Assumptions C42_invariant.
Example C42_ex : exists p', mux_all Debug psi_default (map encode [ex_fill true 1 (0 :: firstn 6 ex_section);
                                         ex_fill true 2 ([9] ++ skipn 6 ex_section ++ firstn 5 ex_section2)]) = Ok p' /\
  length (p_buffer p') = 20%nat /\ p_size p' = 15%nat /\ section_length (p_buffer p') = 15%nat.
Proof. eexists. split; [vm_compute; reflexivity|]. repeat split; vm_compute; reflexivity. Qed.

(** * C43 *)
Theorem C43_equality : forall a b, bytes (p_buffer a) -> bytes (p_buffer b) ->
  (4 <= p_size a <= length (p_buffer a))%nat -> (4 <= p_size b <= length (p_buffer b))%nat ->
  exists r, psi_eq a b = Ok r /\
    (r = true <-> p_size a = p_size b /\
       firstn 4 (skipn (p_size a - 4) (p_buffer a)) = firstn 4 (skipn (p_size b - 4) (p_buffer b))).
Proof. exact W_psi.eq_complete. Qed.
Print Assumptions C43_equality.
Theorem C43_reflexive : forall p, bytes (p_buffer p) -> (4 <= p_size p <= length (p_buffer p))%nat -> psi_eq p p = Ok true.
Proof. exact W_psi.eq_same. Qed.
Print Assumptions C43_reflexive.
Theorem C43_collision_refuted : exists a b, section_ok (p_buffer a) /\ section_ok (p_buffer b) /\
  p_size a = length (p_buffer a) /\ p_size b = length (p_buffer b) /\
  p_buffer a <> p_buffer b /\ psi_eq a b = Ok true.
Proof. exact W_psi.eq_collision. Qed.
Print Assumptions C43_collision_refuted.
Theorem C43_abort_exactly : forall a b, bytes (p_buffer a) -> bytes (p_buffer b) ->
  (psi_eq a b = Panic <-> p_size a = p_size b /\
    (p_size a < 4 \/ length (p_buffer a) < p_size a \/ length (p_buffer b) < p_size a)%nat).
Proof. exact W_psi.eq_panic. Qed.
Print Assumptions C43_abort_exactly.
Theorem C43_fresh_aborts : psi_eq psi_default psi_default = Panic.
Proof. exact W_psi.eq_fresh. Qed.
Print Assumptions C43_fresh_aborts.
Example C43_ex : psi_eq (mkPsi ex_section 15 1 2) (mkPsi (ex_section ++ [7]) 15 0 0) = Ok true /\
  psi_eq (mkPsi ex_section 15 1 2) (mkPsi ex_section2 12 0 0) = Ok false /\
  psi_eq (mkPsi ex_section2 12 1 2) (mkPsi (finished [0x46; 0xF0; 0; 9; 9; 9; 9; 8]) 12 0 0) = Ok false.
Proof. repeat split; vm_compute; reflexivity. Qed.

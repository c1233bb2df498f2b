(** C80: packets with another clock. *)
From Verif Require Import Prelude Layout M_ts M_psi M_recv M_measure M_restamp S_ts S_psi S_measure S_remux S_restamp P_restamp.

(** each packet of 188 bytes with a PCR gets the value [k] ticks later, modulo the period of the clock; the others stay as they are *)
Theorem C80_restamp : forall m k l, Forall (fun pk => length pk = 188%nat /\ bytes pk) l -> k < 2 ^ 63 -> restamp m k l = Ok (map (later k) l).
Proof. exact restamp_spec. Qed.
Print Assumptions C80_restamp.

(** the reduction to the period is not needed in front of set_pcr: it keeps what is left of the value *)
Theorem C80_modulo : forall p v, set_pcr p v = set_pcr p (v mod (300 * 2 ^ 33)).
Proof. exact set_modulo. Qed.
Print Assumptions C80_modulo.

(** what is read from such a packet; the rest of it is the same *)
Theorem C80_packet : forall m k pk, length pk = 188%nat -> bytes pk -> is_pcr pk = Ok true ->
  exists v, get_pcr m pk = Ok v /\ is_pcr (later k pk) = Ok true /\ get_pcr m (later k pk) = Ok ((v + k) mod (300 * 2 ^ 33)) /\
  firstn 6 (later k pk) = firstn 6 pk /\ skipn 12 (later k pk) = skipn 12 pk /\ length (later k pk) = 188%nat.
Proof. exact packet_later. Qed.
Print Assumptions C80_packet.

(** so sections are put together from the packets as before *)
Theorem C80_sections : forall m k l, Forall sound l ->
  (forall p pk, In pk l -> psi_mux m p (later k pk) = psi_mux m p pk) /\
  forall T (parse : T -> psi -> res T) p t, receive m parse p t (map (later k) l) = receive m parse p t l.
Proof. intros m k l F. split; [intros p pk H; apply mux_later; exact (proj1 (Forall_forall _ _) F pk H)|intros T parse p t; apply receive_later; exact F]. Qed.
Print Assumptions C80_sections.

(** two shifts are one; a shift and what is missing to whole turns gives back the packet exactly if its PCR was as the standard has it *)
Theorem C80_twice : forall j k pk, length pk = 188%nat -> bytes pk -> later j (later k pk) = later (k + j) pk.
Proof. intros j k pk L B. exact (later_later j k pk (conj L B)). Qed.
Print Assumptions C80_twice.
Theorem C80_back : forall j k pk, length pk = 188%nat -> bytes pk -> (k + j) mod (300 * 2 ^ 33) = 0 ->
  (later j (later k pk) = pk <-> (has_pcr pk = true -> field pk 81 6 = 63 /\ field pk 87 9 < 300)).
Proof. exact back. Qed.
Print Assumptions C80_back.

(** the true distance of two values stays; pcr_delta, which loses a tick at a wrap, may give one more or one less *)
Theorem C80_distance : forall m k a b, a < PERIOD -> b < PERIOD ->
  let a' := (a + k) mod PERIOD in let b' := (b + k) mod PERIOD in
  ((Z.of_N b' - Z.of_N a') mod Z.of_N PERIOD = (Z.of_N b - Z.of_N a) mod Z.of_N PERIOD)%Z /\
  exists d d', pcr_delta m a b = Ok d /\ pcr_delta m a' b' = Ok d' /\
    d' + (if b' <? a' then 1 else 0) = d + (if b <? a then 1 else 0).
Proof. intros m k a b A B. exact (conj (distance k a b) (delta_shift m k a b A B)). Qed.
Print Assumptions C80_distance.

(** the clock of a PID as it is read, before and behind *)
Theorem C80_clock : forall m pid k l, Forall (fun pk => length pk = 188%nat /\ bytes pk) l ->
  observe m pid 0 l = Ok (clock pid 0 l) /\ observe m pid 0 (map (later k) l) = Ok (shifted k (clock pid 0 l)).
Proof. exact clocks. Qed.
Print Assumptions C80_clock.

(** the jitter that is measured on any stream (PCR values of any jitter; less than 4 MB between two) is the same behind, as long as the new clock stays in one turn *)
Theorem C80_measured : forall m pid k l a na b nb r, Forall (fun pk => length pk = 188%nat /\ bytes pk) l -> k < 2 ^ 63 ->
  observe m pid 0 l = Ok ((a, na) :: (b, nb) :: r) ->
  (forall x, In x ((a, na) :: (b, nb) :: r) -> fst x < PERIOD /\ turns (fst x + k) = turns (a + k) /\ snd x < 2 ^ 22) ->
  exists l' a' b' r', restamp m k l = Ok l' /\ observe m pid 0 l' = Ok ((a', na) :: (b', nb) :: r') /\ measure m a' b' nb r' = measure m a b nb r.
Proof. exact restamped_measure. Qed.
Print Assumptions C80_measured.

(** a packet of PID 0x100 with PCR [v] and nothing else *)
Definition beat (v : N) : list N := [0x47; 0x01; 0x00; 0x20; 183; 0x10] ++ pcr_bytes (v / 300) 63 (v mod 300) ++ repeat 0xFF 176.

(** across the wrap of the new clock a perfect stream is measured as imperfect, or the measurement aborts *)
Theorem C80_measured_refuted : exists k l l' a na b nb r a' b' r', k < PERIOD /\ (forall m, restamp m k l = Ok l') /\
  (forall m, observe m 0x100 0 l = Ok ((a, na) :: (b, nb) :: r)) /\ (forall m, observe m 0x100 0 l' = Ok ((a', na) :: (b', nb) :: r')) /\
  (forall m, measure m a b nb r = Ok [0; 0]%Z) /\ measure Debug a' b' nb r' = Panic /\ measure Release a' b' nb r' = Ok [-37; 37]%Z.
Proof.
  exists (PERIOD - 10152), (map beat [0; 5076; 10152; 15228]), (map beat [PERIOD - 10152; PERIOD - 5076; 0; 5076]),
    0, 188, 5076, 188, [(10152, 188); (15228, 188)], (PERIOD - 10152), (PERIOD - 5076), [(0, 188); (5076, 188)].
  split; [reflexivity|]. split; [intros []; vm_compute; reflexivity|]. split; [intros []; vm_compute; reflexivity|]. split; [intros []; vm_compute; reflexivity|].
  split; [intros []; vm_compute; reflexivity|]. split; vm_compute; reflexivity.
Qed.
Print Assumptions C80_measured_refuted.

(** half an hour later; a jitter of 10 us stays *)
Example C80_ex : (forall m, restamp m 48600000000 (map beat [5076; 10152; 15498; 20304]) = Ok (map beat [48600005076; 48600010152; 48600015498; 48600020304])) /\
  (forall m, observe m 0x100 0 (map beat [5076; 10152; 15498; 20304]) = Ok [(5076, 188); (10152, 188); (15498, 188); (20304, 188)]) /\
  (forall m, measure m 5076 10152 188 [(15498, 188); (20304, 188)] = Ok [10000; -20000]%Z) /\
  (forall m, measure m 48600005076 48600010152 188 [(48600015498, 188); (48600020304, 188)] = Ok [10000; -20000]%Z) /\
  later 1 (beat (PERIOD - 1)) = beat 0 /\
  later 0 ([0x47; 0x01; 0x00; 0x20; 183; 0x10] ++ pcr_bytes 7 0 301 ++ repeat 0xFF 176) = beat 2401.
Proof.
  split; [intros []; vm_compute; reflexivity|]. split; [intros []; vm_compute; reflexivity|]. split; [intros []; vm_compute; reflexivity|]. split; [intros []; vm_compute; reflexivity|].
  split; vm_compute; reflexivity.
Qed.

(** C76: measuring the clock references of a program. *)
From Verif Require Import Prelude M_ts M_measure S_measure P_measure.
From Verif Require P_pcr2.

(** the deviation of a PCR value from an expected time that never wraps: exact as long as the clock
    has not wrapped, one tick short behind a wrap, and an abort when the PCR value comes early or in
    time behind a wrap *)
Theorem C76_jitter : forall m stc pcr e, (-27000000 <= e <= 27000000)%Z -> (0 <= Z.of_N stc + e < 2 * Z.of_N PERIOD)%Z ->
  Z.of_N pcr = ((Z.of_N stc + e) mod Z.of_N PERIOD)%Z ->
  pcr_jitter_ns m pcr stc =
    if (Z.of_N stc + e <? Z.of_N PERIOD)%Z then Ok (ns e)
    else if (0 <? e)%Z then Ok (ns (e - 1)) else match m with Debug => Panic | Release => Ok (ns (e - 1)) end.
Proof. exact jitter_near. Qed.
Print Assumptions C76_jitter.

(** exact PCR values of a constant bit rate: what is measured, wrap by wrap *)
Theorem C76_measured : forall m rt rb t0 t1 n1 l, 0 < rb -> steady rt rb t0 ((t1, n1) :: l) ->
  measure m (t0 mod PERIOD) (t1 mod PERIOD) n1 (wrapped l) =
    if (match m with Debug => true | Release => false end) && existsb (fun x => negb (turns (fst x) =? turns t1)) l then Panic
    else Ok (map ns ((fix errors t0 t1 n1 l := match l with
                      | [] => []
                      | (t2, n2) :: l' =>
                        (if turns t2 =? turns t1 then if turns t1 =? turns t0 then 0%Z else Z.of_N ((n2 + n1 - 1) / n1) else (-1)%Z) ::
                        errors t1 t2 n2 l'
                      end) t0 t1 n1 l)).
Proof. intros m rt rb t0 t1 n1 l R S. inversion S; subst. apply (measured m rt rb); assumption. Qed.
Print Assumptions C76_measured.

(** within one turn of the clock nothing is measured on such a stream *)
Theorem C76_steady : forall m rt rb t0 t1 n1 l, 0 < rb -> steady rt rb t0 ((t1, n1) :: l) ->
  (forall x, In x ((t1, n1) :: l) -> turns (fst x) = turns t0) ->
  measure m (t0 mod PERIOD) (t1 mod PERIOD) n1 (wrapped l) = Ok (map (fun _ => 0%Z) l).
Proof. exact steady_zero. Qed.
Print Assumptions C76_steady.

(** but a perfect stream is measured as imperfect, or the measurement aborts, where the clock wraps *)
Theorem C76_wrap_refuted : exists rt rb t0 t1 n1 l, 0 < rb /\ steady rt rb t0 ((t1, n1) :: l) /\
  measure Debug (t0 mod PERIOD) (t1 mod PERIOD) n1 (wrapped l) = Panic /\
  measure Release (t0 mod PERIOD) (t1 mod PERIOD) n1 (wrapped l) = Ok [-37; 37]%Z.
Proof.
  exists 27, 1, (PERIOD - 5400), (PERIOD - 2700), 100, [(PERIOD, 100); (PERIOD + 2700, 100)].
  split; [reflexivity|]. split; [|split; vm_compute; reflexivity].
  change (PERIOD - 2700) with (PERIOD - 5400 + 2700). constructor; [reflexivity|discriminate|split; reflexivity|].
  change PERIOD with (PERIOD - 5400 + 2700 + 2700) at 2. constructor; [reflexivity|discriminate|split; reflexivity|].
  change (PERIOD + 2700) with (PERIOD - 5400 + 2700 + 2700 + 2700). constructor; [reflexivity|discriminate|split; reflexivity|constructor].
Qed.
Print Assumptions C76_wrap_refuted.

(** PCR values rounded down to a tick, at most 216 Mbit/s: within one turn the measured deviation [e]
    between intervals of n1 and n2 bytes stays in -(1 + n2/n1) < e < 2 + n2/n1 ([w] = 0); a build
    without overflow checks stays in -(2 + n2/n1) < e < 2 + 2 n2/n1 anywhere ([w] = 1) *)
Theorem C76_rounded : forall m rt rb s x n1 l, 0 < rb <= rt ->
  let time y := (s + y * rt) / rb in
  let near w := fix near n1 (l : list (N * N)) (es : list Z) : Prop :=
    match l, es with
    | [], [] => True
    | (_, n2) :: l', e :: es' => (- Z.of_N (n1 + n2 + w * n1) < e * Z.of_N n1 < Z.of_N (2 * n1 + n2 + w * n2))%Z /\ near n2 l' es'
    | _, _ => False
    end in
  paced rt rb s x ((time (x + n1), n1) :: l) ->
  ((forall o, In o ((time (x + n1), n1) :: l) -> turns (fst o) = turns (time x)) ->
   exists es, measure m (time x mod PERIOD) (time (x + n1) mod PERIOD) n1 (wrapped l) = Ok (map ns es) /\ near 0 n1 l es) /\
  exists es, measure Release (time x mod PERIOD) (time (x + n1) mod PERIOD) n1 (wrapped l) = Ok (map ns es) /\ near 1 n1 l es.
Proof. exact rounded_all. Qed.
Print Assumptions C76_rounded.

(** 13.5 ticks a byte: three packets, five, two; the PCR values are rounded down. A PCR value that is
    late shows up twice, when it comes and when the next one comes. *)
Example C76_ex :
  paced 27 2 0 1 [(7627, 564); (20317, 940); (25393, 376)] /\
  measure Debug 13 7627 564 [(20317, 940); (25393, 376)] = Ok [0; 0]%Z /\
  (forall m, measure m 1000 2000 100 [(3000, 100); (4270, 100); (5000, 100); (6000, 100)] = Ok [0; 10000; -20000; 10000]%Z).
Proof.
  split; [|split; [vm_compute; reflexivity|intros []; vm_compute; reflexivity]].
  change 7627 with ((0 + (1 + 564) * 27) / 2). constructor; [split; reflexivity|vm_compute; discriminate|].
  change 20317 with ((0 + (1 + 564 + 940) * 27) / 2). constructor; [split; reflexivity|vm_compute; discriminate|].
  change 25393 with ((0 + (1 + 564 + 940 + 376) * 27) / 2). constructor; [split; reflexivity|vm_compute; discriminate|constructor].
Qed.

(** * C09, any values *)
(** the jitter of any two 64-bit values: [ahead] is reduced to 64 bits with sign, a second and more is taken for a wrap of the clock, and the ticks
    are converted to nanoseconds; with overflow checks it aborts instead of wrapping *)
Definition i64 (w : Z) : Prop := (-9223372036854775808 <= w < 9223372036854775808)%Z.
Definition wraps (z w : Z) : Prop := i64 w /\ ((w - z) mod 18446744073709551616 = 0)%Z.
Definition ahead (pcr stc : N) : Z := if pcr <? stc then (Z.of_N pcr + 2576980377599 - Z.of_N stc)%Z else (Z.of_N pcr - Z.of_N stc)%Z.
Definition tick (s : Z) : Z := if (27000000 <? s)%Z then (s - 2576980377599)%Z else s.
Definition too_large (pcr stc : N) : bool := (pcr <? stc) && ((18446744073709551616 <=? pcr + 2576980377599) || (pcr + 2576980377599 <? stc)).
Theorem C09_any : forall pcr stc, pcr < U64 -> stc < U64 ->
  (exists s w, wraps (ahead pcr stc) s /\ wraps (tick s * 1000) w /\ pcr_jitter_ns Release pcr stc = Ok (Z.quot w 27)) /\
  (exists s, wraps (ahead pcr stc) s /\
    ((too_large pcr stc = true \/ ~ i64 (tick s * 1000)) -> pcr_jitter_ns Debug pcr stc = Panic) /\
    (too_large pcr stc = false -> i64 (tick s * 1000) -> pcr_jitter_ns Debug pcr stc = Ok (Z.quot (tick s * 1000) 27))).
Proof. intros pcr stc H1 H2. exact (conj (P_pcr2.jitter_release pcr stc H1 H2) (P_pcr2.jitter_debug pcr stc H1 H2)). Qed.
Print Assumptions C09_any.
Example C09_ex_any : pcr_jitter_ns Release 18446744073709551615 1 = Ok (-74)%Z /\ pcr_jitter_ns Debug 18446744073709551615 1 = Ok (-74)%Z /\
  pcr_jitter_ns Debug 5 2576980377605 = Panic /\ pcr_jitter_ns Release 5 2576980377605 = Ok (-37)%Z /\
  pcr_jitter_ns Debug 9223372036854775807 0 = Panic /\ pcr_jitter_ns Release 9223372036854775807 0 = Ok (-95443717688888)%Z.
Proof. repeat split; vm_compute; reflexivity. Qed.
